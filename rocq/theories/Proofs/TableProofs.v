(** The entries of the tables of powers of two, for C58. *)
From Coq Require Import ZArith QArith List Bool Lia.
From Verif.Spec Require Import FloatSpec.
From Verif.Model Require Import Base Fixed.
Import ListNotations.
Local Open Scope Q_scope.

Definition withinb (error x y : Q) : bool := Qle_bool (x - error) y && Qle_bool y (x + error).

Lemma withinb_within : forall error x y, withinb error x y = true -> within error x y.
Proof. intros e x y H. apply andb_prop in H as [A B]. split; now apply Qle_bool_iff. Qed.

Definition entry_ok (power : nat -> Z) (i : nat) (entry : Z * Z) : bool :=
  withinb ((1 # 2) * Qpower 10 (snd entry)) (Qpower 2 (power i)) (decimal (fst entry) (snd entry)) &&
  ((10 ^ 18 <=? fst entry) && (fst entry <? 10 ^ 19))%Z.

Fixpoint entries_ok (power : nat -> Z) (i : nat) (l : list (Z * Z)) : bool :=
  match l with [] => true | x :: r => entry_ok power i x && entries_ok power (S i) r end.

Lemma entries_ok_nth : forall power l n i d e, entries_ok power n l = true -> nth_error l i = Some (d, e) ->
  within ((1 # 2) * Qpower 10 e) (Qpower 2 (power (n + i)%nat)) (decimal d e) /\ (10 ^ 18 <= d < 10 ^ 19)%Z.
Proof.
  intros power l. induction l as [|x r IH]; intros n i d e H E; [destruct i; discriminate|].
  cbn [entries_ok] in H. apply andb_prop in H as [A B]. destruct i as [|i].
  - cbn in E. injection E as ->. unfold entry_ok in A. cbn [fst snd] in A. apply andb_prop in A as [A C].
    apply andb_prop in C as [C D]. rewrite Nat.add_0_r. split; [now apply withinb_within|].
    apply Z.leb_le in C. apply Z.ltb_lt in D. now split.
  - cbn [nth_error] in E. replace (n + S i)%nat with (S n + i)%nat by lia. now apply IH.
Qed.

Lemma table_entries :
  length (binary_table 0) = 10%nat /\ length (binary_table 1) = 10%nat /\ length float_elems = 23%nat /\ length double_elems = 52%nat /\
  forall (table : list (Z * Z)) (power : nat -> Z),
  table = binary_table 0 /\ power = (fun i => 2 ^ Z.of_nat i)%Z \/
  table = binary_table 1 /\ power = (fun i => - 2 ^ Z.of_nat i)%Z \/
  table = float_elems /\ power = (fun i => Z.of_nat i - 23)%Z \/
  table = double_elems /\ power = (fun i => Z.of_nat i - 52)%Z ->
  forall (i : nat) (d e : Z), nth_error table i = Some (d, e) ->
  within ((1 # 2) * Qpower 10 e) (Qpower 2 (power i)) (decimal d e) /\ (10 ^ 18 <= d < 10 ^ 19)%Z.
Proof.
  split; [reflexivity|]. split; [reflexivity|]. split; [reflexivity|]. split; [reflexivity|].
  intros table power H i d e E. refine (entries_ok_nth power table 0 i d e _ E).
  destruct H as [[-> ->]|[[-> ->]|[[-> ->]|[-> ->]]]]; vm_compute; reflexivity.
Qed.
