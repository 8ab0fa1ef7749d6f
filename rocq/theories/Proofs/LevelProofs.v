(** The stack of section levels: what it says about the progress through the tree of sections. *)
From Verif.Model Require Import Base Vector StringUtil Filter Run.
From Verif.Spec Require Import Events RunSpec.
From Verif.Proofs Require Import Lists.

(** Bodies of the direct sections of a piece of code, in order. *)
Fixpoint secs (p : prog) : list prog :=
  match p with
  | Nil => []
  | Act _ k | Throw _ _ k | Skip _ _ _ k => secs k
  | Check _ _ _ e k => secs e ++ secs k
  | InSection _ b k => b :: secs k
  | Capture _ b k | Catch _ _ b k => secs b ++ secs k
  end.

Definition weight (b : prog) : nat := Nat.max 1 (leaves b).
Definition total (l : list prog) : nat := list_sum (map weight l).

Lemma total_app a b : total (a ++ b) = total a + total b.
Proof. unfold total. now rewrite map_app, list_sum_app. Qed.
Lemma total_cons a b : total (a :: b) = weight a + total b.
Proof. reflexivity. Qed.
Lemma total_pos a : length a <= total a.
Proof. induction a; [auto|]. rewrite total_cons. unfold weight. cbn [length]. lia. Qed.

Lemma leaves_total p : leaves p = total (secs p).
Proof. induction p; cbn [leaves secs]; rewrite ?total_app, ?total_cons; unfold weight; try lia. reflexivity. Qed.

Lemma total_firstn_le n l : total (firstn n l) <= total l.
Proof. rewrite <- (firstn_skipn n l) at 2. rewrite total_app. lia. Qed.

Lemma total_firstn_mono n m l : n <= m -> total (firstn n l) <= total (firstn m l).
Proof.
  intros H. replace (firstn n l) with (firstn n (firstn m l)) by (rewrite firstn_firstn; f_equal; lia).
  apply total_firstn_le.
Qed.

Lemma total_firstn_nth n l b : nth_error l n = Some b ->
  total (firstn (S n) l) = total (firstn n l) + weight b.
Proof.
  revert l; induction n; destruct l as [|x l]; simpl; try congruence; intros H.
  - injection H as ->. unfold total; simpl; lia.
  - specialize (IHn l H). simpl in IHn. rewrite (total_cons x), (total_cons x). lia.
Qed.

Lemma total_firstn_lt n l : n < length l -> total (firstn n l) < total l.
Proof.
  intros H. destruct (nth_error l n) as [b|] eqn:E; [|apply nth_error_None in E; lia].
  pose proof (total_firstn_nth n l b E). pose proof (total_firstn_le (S n) l). unfold weight in *. lia.
Qed.

(** [Inv L n rest j]: the direct sections of the current code are [L], the last one entered is number [n] (from
    1), the levels below it are [rest], and [j] leaves have been executed. *)
Fixpoint Inv (L : list prog) (n : nat) (rest : list level) (j : nat) : Prop :=
  match rest with
  | [] => n <= length L /\ j = total (firstn n L)
  | lv :: rest' =>
    exists m b j', n = S m /\ nth_error L m = Some b /\ j = total (firstn m L) + j' /\ 0 < j' /\ j' < leaves b /\
                   max_id lv = length (secs b) /\ Inv (secs b) (prev_id lv) rest' j'
  end.

Lemma Inv_skip A B n rest j : Inv (A ++ B) n rest j -> total A <= j ->
  length A <= n /\ Inv B (n - length A) rest (j - total A).
Proof.
  destruct rest as [|lv rest]; simpl.
  - intros [H ->] T. rewrite app_length in H.
    assert (length A <= n).
    { destruct (Nat.le_gt_cases (length A) n); auto. rewrite firstn_app_le in T by lia.
      pose proof (total_firstn_lt n A). lia. }
    split; auto. split; [lia|]. rewrite firstn_app_ge, total_app by lia. lia.
  - intros (m & b & j' & -> & E & -> & P & Q & M & I) T.
    assert (length A <= m).
    { destruct (Nat.le_gt_cases (length A) m); auto. rewrite nth_error_app1 in E by lia.
      rewrite firstn_app_le in T by lia.
      pose proof (total_firstn_nth m A b E). pose proof (total_firstn_le (S m) A). unfold weight in *. lia. }
    split; [lia|]. rewrite nth_error_app2 in E by lia. rewrite firstn_app_ge, total_app by lia.
    exists (m - length A), b, j'. repeat split; auto; lia.
Qed.

Lemma Inv_add A B n rest j : Inv B n rest j -> Inv (A ++ B) (length A + n) rest (total A + j).
Proof.
  destruct rest as [|lv rest]; simpl.
  - intros [H ->]. rewrite app_length, firstn_app_ge, total_app by lia.
    replace (length A + n - length A) with n by lia. lia.
  - intros (m & b & j' & -> & E & -> & P & Q & M & I).
    exists (length A + m), b, j'. rewrite nth_error_app2, firstn_app_ge, total_app by lia.
    replace (length A + m - length A) with m by lia. repeat split; auto; lia.
Qed.

Lemma Inv_le L n rest j : Inv L n rest j -> n <= length L /\ j <= total L.
Proof.
  destruct rest as [|lv rest]; simpl.
  - intros [H ->]. split; auto. apply total_firstn_le.
  - intros (m & b & j' & -> & E & -> & P & Q & M & I).
    assert (m < length L) by (apply nth_error_Some; congruence).
    pose proof (total_firstn_nth m L b E). pose proof (total_firstn_le (S m) L). unfold weight in *. lia.
Qed.

Definition complete (l : level) : bool := prev_id l =? max_id l.

Lemma Inv_complete L n rest j : Inv L n rest j ->
  ((n =? length L) && forallb complete rest = (j =? total L)) /\ (j = total L -> rest = []).
Proof.
  revert L n j; induction rest as [|lv rest IH]; intros L n j; cbn [Inv].
  - intros [H ->]. split; auto. cbn [forallb]. rewrite andb_true_r.
    destruct (Nat.eqb_spec n (length L)).
    + subst. rewrite firstn_all. now rewrite Nat.eqb_refl.
    + symmetry. apply Nat.eqb_neq. pose proof (total_firstn_lt n L). lia.
  - intros (m & b & j' & -> & E & -> & P & Q & M & I).
    destruct (IH _ _ _ I) as [C1 C2].
    assert (j' <> total (secs b)) by (rewrite <- leaves_total; lia).
    cbn [forallb]. unfold complete at 1. rewrite M, C1.
    destruct (Nat.eqb_spec j' (total (secs b))); [contradiction|].
    assert (m < length L) by (apply nth_error_Some; congruence).
    pose proof (total_firstn_nth m L b E). pose proof (total_firstn_le (S m) L). unfold weight in *.
    rewrite andb_false_r. split; [symmetry; apply Nat.eqb_neq; lia|lia].
Qed.

Definition idle (l : list level) : Prop := Forall (fun x => cur_id x = 0) l.
Lemma idle_reset l : idle (map reset_level l).
Proof. induction l; constructor; auto. Qed.

Lemma Inv_reset rest : forall L n j, Inv L n (map reset_level rest) j <-> Inv L n rest j.
Proof.
  induction rest as [|lv rest IH]; intros L n j; [reflexivity|]. cbn [Inv map].
  split; intros (m & b & j' & H1 & H2 & H3 & H4 & H5 & H6 & I); exists m, b, j'; repeat split; auto; apply IH; auto.
Qed.

(** The level of the code being executed: absent until a section is met. *)
Definition top (l : list level) : level := match l with [] => mklevel 0 0 0 | x :: _ => x end.

(** [n] more sections have been met, none of which was entered. *)
Definition meet (n : nat) (l : list level) : list level :=
  match n with
  | O => l
  | _ => mklevel (cur_id (top l) + n) (prev_id (top l)) (Nat.max (max_id (top l)) (cur_id (top l) + n)) :: tl l
  end.

Lemma meet_meet a b l : meet b (meet a l) = meet (a + b) l.
Proof.
  destruct a; [reflexivity|]. destruct b; [now rewrite Nat.add_0_r|].
  cbn [meet top tl cur_id prev_id max_id Nat.add]. f_equal. f_equal; lia.
Qed.

Lemma meet_present n l : l <> [] -> meet n l <> [].
Proof. destruct n; simpl; congruence. Qed.

(** ** Looking for the leaf section of a pass *)

(** Before executing code whose direct sections come first in [L]. *)
Definition seek (target : option nat) (L : list prog) (lvo : list level) (lf : bool) : Prop :=
  match target with
  | None => lf = true /\ lvo <> []
  | Some j =>
    lf = false /\ idle (tl lvo) /\ cur_id (top lvo) <= prev_id (top lvo) /\
    max_id (top lvo) <= cur_id (top lvo) + length L /\
    Inv L (prev_id (top lvo) - cur_id (top lvo)) (tl lvo) j
  end.

(** After executing code whose direct sections are [A], followed by [L]. *)
Definition reached (target : option nat) (A L : list prog) (lvo : list level) (lf : bool) (lvo' : list level) (lf' : bool)
  : Prop :=
  match target with
  | None => lf' = lf /\ lvo' = meet (length A) lvo
  | Some j =>
    if j <? total A then
      lf' = true /\ exists prev' rest',
        lvo' = mklevel (cur_id (top lvo) + length A) prev' (Nat.max (max_id (top lvo)) (cur_id (top lvo) + length A)) :: rest' /\
        cur_id (top lvo) < prev' /\ Inv (A ++ L) (prev' - cur_id (top lvo)) rest' (S j)
    else lf' = lf /\ lvo' = meet (length A) lvo
  end.

Definition pass_over (target : option nat) (A : list prog) : option nat :=
  match target with
  | Some j => if j <? total A then None else Some (j - total A)
  | None => None
  end.

Lemma past_pass_over t p : past t p = pass_over t (secs p).
Proof. unfold past, pass_over. destruct t; auto. now rewrite leaves_total. Qed.

Lemma reached_nil t L lvo lf : reached t [] L lvo lf lvo lf.
Proof. destruct t; simpl; auto. Qed.

Lemma meet_top n l : cur_id (top (meet n l)) = cur_id (top l) + n /\ prev_id (top (meet n l)) = prev_id (top l) /\
  tl (meet n l) = tl l /\
  (max_id (top (meet n l)) = Nat.max (max_id (top l)) (cur_id (top l) + n) \/ n = 0 /\ meet n l = l).
Proof. destruct n; simpl; rewrite ?Nat.add_0_r; auto 6. Qed.

Lemma seek_after t A L lvo lf lvo' lf' :
  seek t (A ++ L) lvo lf -> reached t A L lvo lf lvo' lf' -> seek (pass_over t A) L lvo' lf'.
Proof.
  destruct t as [j|]; cbn [seek reached pass_over].
  - intros (-> & I & C & M & V). destruct (Nat.ltb_spec j (total A)).
    + intros (-> & p' & r' & -> & _). simpl. split; congruence.
    + intros [-> ->]. cbn [seek]. destruct (meet_top (length A) lvo) as (E1 & E2 & E3 & E4).
      rewrite E1, E2, E3. rewrite app_length in M.
      destruct (Inv_skip _ _ _ _ _ V ltac:(lia)) as [V1 V2].
      repeat split; auto.
      * lia.
      * destruct E4 as [->|[E4 E5]]; [lia|]. rewrite E5, E4 in *. lia.
      * replace (prev_id (top lvo) - (cur_id (top lvo) + length A)) with (prev_id (top lvo) - cur_id (top lvo) - length A) by lia.
        auto.
  - intros [-> H] [-> ->]. split; auto. now apply meet_present.
Qed.

Lemma reached_app t A1 A2 L lvo lf lvo1 lf1 lvo2 lf2 :
  seek t (A1 ++ A2 ++ L) lvo lf ->
  reached t A1 (A2 ++ L) lvo lf lvo1 lf1 -> reached (pass_over t A1) A2 L lvo1 lf1 lvo2 lf2 ->
  reached t (A1 ++ A2) L lvo lf lvo2 lf2.
Proof.
  destruct t as [j|]; cbn [seek reached pass_over].
  - intros (_ & I & C & M & V). rewrite total_app, app_length. destruct (Nat.ltb_spec j (total A1)).
    + intros (-> & p' & r' & -> & P & W). cbn [reached]. intros [-> ->].
      destruct (Nat.ltb_spec j (total A1 + total A2)); [|lia]. split; auto.
      exists p', r'. rewrite <- app_assoc. split; auto. destruct (length A2); cbn [meet top cur_id prev_id max_id tl].
      * rewrite !Nat.add_0_r. auto.
      * f_equal. f_equal; lia.
    + intros [-> ->]. cbn [reached]. destruct (meet_top (length A1) lvo) as (E1 & E2 & E3 & E4).
      destruct (Inv_skip _ _ _ _ _ V ltac:(lia)) as [V1 V2].
      destruct (Nat.ltb_spec (j - total A1) (total A2)).
      * intros (-> & p' & r' & -> & P & W). rewrite E1 in *.
        destruct (Nat.ltb_spec j (total A1 + total A2)); [|lia]. split; auto.
        exists p', r'. split; [|split; [lia|]].
        -- f_equal. f_equal; [lia|]. destruct E4 as [->|[-> ->]]; lia.
        -- apply (Inv_add A1) in W. rewrite <- app_assoc.
           replace (p' - cur_id (top lvo)) with (length A1 + (p' - (cur_id (top lvo) + length A1))) by lia.
           replace (S j) with (total A1 + S (j - total A1)) by lia. auto.
      * intros [-> ->]. destruct (Nat.ltb_spec j (total A1 + total A2)); [lia|]. split; auto. now rewrite meet_meet.
  - intros _ [-> ->] [-> ->]. split; auto. now rewrite app_length, meet_meet.
Qed.

Lemma flat_secs p : flat p -> secs p = [].
Proof. induction p; simpl; try tauto; intros [A B]; rewrite IHp1, IHp2; auto. Qed.
