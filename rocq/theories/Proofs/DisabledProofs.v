(** Proofs about disabled tests (C93). *)
From Verif.Spec Require Import TextSpec RunSpec DeclareSpec UserCodeSpec DisabledSpec.
From Verif.Model Require Import Base Disabled.
Import ListNotations.

Section Disabled.
Context {W : Type}.
Implicit Types (w : W).

Lemma execute_body : forall (body : list (statement W)) w, execute_all (expand_body body) w = in_order (without_snitch body) w.
Proof.
  induction body as [|s body IH]; intro w; [reflexivity|].
  destruct s as [f|m ops|m t|n b]; cbn.
  - unfold and_then. destruct (f w); [apply IH|reflexivity].
  - destruct m as [[]|[]| | | | |]; cbn; unfold and_then, giving; apply IH.
  - destruct m; cbn; unfold and_then, giving; apply IH.
  - unfold and_then, giving. apply IH.
Qed.

Lemma allowed_items : forall items : list (item W),
  forallb allowed_outside_functions (map expand_item items) = negb (existsb refused items).
Proof.
  induction items as [|i items IH]; [reflexivity|]. cbn. rewrite IH, negb_orb. f_equal.
  destruct i as [[]| | |]; reflexivity.
Qed.

Lemma no_initialiser : forall items : list (item W),
  flat_map (fun t => match t with Initialised f => [f] | _ => [] end) (map expand_item items) = [].
Proof. induction items as [|i items IH]; [reflexivity|]. cbn. rewrite IH. destruct i as [[]| | |]; reflexivity. Qed.

Lemma built_functions : forall items : list (item W),
  Forall2 (fun x y => fst x = fst y /\ forall w, snd x w = snd y w)
    (flat_map (fun t => match t with Called n b => [(n, execute_all b)] | _ => [] end) (map expand_item items)) (functions items).
Proof.
  induction items as [|i items IH]; [constructor|]. cbn.
  destruct i as [[]| | |n b]; cbn; try exact IH. constructor; [|exact IH]. cbn. split; [reflexivity|]. intro w. apply execute_body.
Qed.

Lemma disabled_build : forall items : list (item W),
  match build_disabled items with
  | None => Exists (fun i => refused i = true) items
  | Some p =>
    Forall (fun i => refused i = false) items /\
    Forall2 (fun x y => fst x = fst y /\ forall w, snd x w = snd y w) (b_functions p) (functions items) /\
    (forall argv w, start p argv w = Gives w 0)
  end.
Proof.
  intro items. unfold build_disabled. rewrite allowed_items. destruct (existsb refused items) eqn:E; cbn.
  - apply Exists_exists. apply existsb_exists. exact E.
  - split; [|split].
    + apply Forall_forall. intros i I. destruct (refused i) eqn:R; [|reflexivity].
      assert (X : existsb refused items = true) by (apply existsb_exists; eauto). congruence.
    + apply built_functions.
    + intros argv w. unfold start. cbn. rewrite no_initialiser. reflexivity.
Qed.

Lemma lists_refused : forall name tags template types line (body : text -> list (statement W)) before after,
  build_disabled (before ++ Test (TemplateListTestCase name tags template types line body) :: after) = None.
Proof.
  intros. unfold build_disabled. rewrite allowed_items.
  rewrite existsb_app. cbn. rewrite orb_true_r. reflexivity.
Qed.
End Disabled.
