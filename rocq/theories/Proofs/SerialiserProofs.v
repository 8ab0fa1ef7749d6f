(** Functions [append] of the user (C95). *)
From Verif.Spec Require Import TextSpec FilterSpec ExpressionSpec SerialiserSpec.
From Verif.Model Require Import Base Vector StringUtil Expression Capture Serialiser.
From Verif.Proofs Require Import Lists VectorProofs AppendProofs ExpressionProofs.
Local Open Scope list_scope.

(** ** The contract *)
Definition meets (s : serialiser) (ss ss' : sstr) (ok : bool) : Prop :=
  wf ss' /\ vcap ss' = vcap ss /\ exists added, vcontent ss' = vcontent ss ++ added /\
    (ok = true <-> length (vcontent ss ++ text_of s) <= vcap ss) /\ (ok = true -> added = text_of s) /\
    (own_code writes_beginning s -> begins added (text_of s)).

Lemma begins_refl t : begins t t.
Proof. exists []. now rewrite app_nil_r. Qed.
Lemma begins_firstn n t : begins (firstn n t) t.
Proof. exists (skipn n t). now rewrite firstn_skipn. Qed.
Lemma begins_app a t u : begins a t -> begins a (t ++ u).
Proof. intros (b & ->). exists (b ++ u). now rewrite app_assoc. Qed.
Lemma begins_after a t u : begins a u -> begins (t ++ a) (t ++ u).
Proof. intros (b & ->). exists b. now rewrite app_assoc. Qed.

Lemma written_at (ss : sstr) n t : wf ss -> vsize ss + length t <= vcap ss -> n = vsize ss + length t ->
  exists b, memwrite (vbuf ss) (vsize ss) t = Ok b /\ wf (mkvec b n) /\ vcap (mkvec b n) = vcap ss /\ vcontent (mkvec b n) = vcontent ss ++ t.
Proof.
  intros W L ->. unfold wf, vcap, vcontent in *. rewrite memwrite_total by lia. eexists. split; [reflexivity|]. cbn [vbuf vsize].
  assert (K : length (firstn (vsize ss) (vbuf ss)) = vsize ss) by (rewrite firstn_length; lia).
  rewrite !app_length, K, skipn_length. split; [lia|]. split; [lia|].
  rewrite firstn_app_ge by lia. rewrite K. f_equal. rewrite firstn_app_ge by lia. replace (_ - _ - _) with 0 by lia. now rewrite firstn_O, app_nil_r.
Qed.

Lemma meets_by_hand grow ss t : wf ss -> exists ss' ok, append_by_hand grow ss t = Ok (ss', ok) /\ meets (ByHand grow t) ss ss' ok.
Proof.
  intros W. unfold append_by_hand, vavailable. pose proof (vcontent_length ss W) as L. assert (W' := W). unfold wf in W'. rewrite csub_ok by auto. cbn [bind].
  destruct (Nat.ltb_spec (vcap ss - vsize ss) (length t)).
  - exists ss, false. split; [reflexivity|]. split; auto. split; auto. exists []. rewrite app_nil_r. split; auto. cbn [text_of]. rewrite app_length, L. unfold text, str in *.
    split; [split; [discriminate|lia]|]. split; [discriminate|]. intros _. now exists t.
  - assert (E : (if grow then vgrow ss (length t) else vresize ss (vsize ss + length t)) = Ok (mkvec (vbuf ss) (vsize ss + length t))).
    { destruct grow; [unfold vgrow|unfold vresize]; destruct (Nat.ltb_spec (vcap ss) (vsize ss + length t)); auto; lia. }
    cbv zeta. rewrite E. cbn [bind vbuf vsize].
    destruct (written_at ss (vsize ss + length t) t W) as (b & M & Wb & Cb & Kb); [lia|auto|]. rewrite M. cbn [bind]. eexists _, true. split; [reflexivity|].
    split; auto. split; auto. exists t. split; auto. cbn [text_of]. rewrite app_length, L. split; [unfold text, str in *; split; [lia|auto]|]. split; auto. intros _. apply begins_refl.
Qed.
Lemma own_result f ss c ok : wf ss -> f (vcap ss) (vcontent ss) = (c, ok) -> length c <= vcap ss ->
  exists ss', append_own f ss = Ok (ss', ok) /\ wf ss' /\ vcap ss' = vcap ss /\ vcontent ss' = c /\ vbuf ss' = c ++ skipn (length c) (vbuf ss).
Proof.
  intros W E L. unfold append_own. rewrite E. unfold vresize. destruct (Nat.ltb_spec (vcap ss) (length c)); [lia|]. cbn [bind vbuf vsize].
  rewrite memwrite_total by (unfold vcap in *; cbn; lia). cbn [bind Nat.add firstn app]. eexists. split; [reflexivity|]. unfold wf, vcap, vcontent in *. cbn [vbuf vsize].
  rewrite !app_length, skipn_length. split; [lia|]. split; [lia|]. split; auto. rewrite firstn_app_ge by lia. now rewrite Nat.sub_diag, firstn_O, app_nil_r.
Qed.
Lemma meets_own t f ss : wf ss -> serialises t f -> exists ss' ok, append_own f ss = Ok (ss', ok) /\ meets (Own t f) ss ss' ok.
Proof.
  intros W S. pose proof (vcontent_length ss W) as L. destruct (S (vcap ss) (vcontent ss)) as (added & ok & E & R & I & A); [unfold wf in W; unfold text, str in *; lia|].
  destruct (own_result f ss (vcontent ss ++ added) ok W E R) as (ss' & E' & W' & C' & K' & _). exists ss', ok. split; auto. split; auto. split; auto. exists added. split; auto.
  split; auto. split; auto. cbn [own_code text_of]. intros B. destruct (B (vcap ss) (vcontent ss)) as (x & X & Y); [unfold wf in W; unfold text, str in *; lia|].
  rewrite E in X. cbn [fst] in X. apply app_inv_head in X. now subst.
Qed.

Lemma meets_serialised s : own_code serialises s -> forall ss, wf ss -> exists ss' ok, append_serialised ss s = Ok (ss', ok) /\ meets s ss ss' ok.
Proof.
  induction s as [|t|a IHa b IHb|g t|t f]; cbn [own_code append_serialised]; intros O ss W.
  - exists ss, true. split; auto. split; auto. split; auto. exists []. cbn [text_of]. rewrite app_nil_r. split; auto. split; [|split; auto].
    + split; auto. intros _. rewrite vcontent_length; auto.
    + intros _. apply begins_refl.
  - destruct (append_content ss t W) as (ss' & E & W' & C & K). eexists _, _. split; [exact E|]. pose proof (vcontent_length ss W) as L. unfold wf in W.
    split; auto. split; auto. exists (firstn (vcap ss - length (vcontent ss)) t). rewrite K. cbn [text_of].
    rewrite firstn_app. rewrite firstn_all2 by (unfold str, text in *; lia). split; auto. split; [apply Nat.leb_le|]. split.
    + intros G. apply Nat.leb_le in G. rewrite app_length in G. apply firstn_all2. unfold str, text in *. lia.
    + intros _. apply begins_firstn.
  - destruct O as (O1 & O2). destruct (IHa O1 ss W) as (ss1 & ok1 & E1 & W1 & C1 & x & X & I1 & A1 & B1). rewrite E1. cbn [bind].
    destruct ok1.
    + destruct (IHb O2 ss1 W1) as (ss2 & ok2 & E2 & W2 & C2 & y & Y & I2 & A2 & B2). exists ss2, ok2. split; auto. split; auto. split; [congruence|].
      exists (x ++ y). rewrite (A1 eq_refl) in *. cbn [text_of own_code]. rewrite X, C1 in *. rewrite <- app_assoc in *. split; auto. split; auto. split; [intros G; now rewrite (A2 G)|].
      intros (P1 & P2). now apply begins_after, B2.
    + exists ss1, false. split; auto. split; auto. split; auto. exists x. cbn [text_of own_code]. split; auto. split; [|split; [discriminate|]].
      * split; [discriminate|]. intros G. apply I1. rewrite !app_length in *. lia.
      * intros (P1 & P2). now apply begins_app, B1.
  - now apply meets_by_hand.
  - now apply meets_own.
Qed.

Lemma contract_met s ss : own_code serialises s -> wf ss ->
  exists ss' ok added, append_serialised ss s = Ok (ss', ok) /\ wf ss' /\ vcap ss' = vcap ss /\
    vcontent ss' = vcontent ss ++ added /\
    (ok = true <-> length (vcontent ss ++ text_of s) <= vcap ss) /\ (ok = true -> added = text_of s) /\
    (own_code writes_beginning s -> begins added (text_of s)).
Proof. intros O W. destruct (meets_serialised s O ss W) as (ss' & ok & E & W' & C & added & H). exists ss', ok, added. auto. Qed.
Lemma append_several l : forall ss, append_all_serialised ss l = append_serialised ss (several l).
Proof. induction l as [|s l IH]; intros ss; cbn; auto. destruct (append_serialised ss s) as [[ss1 [|]]|]; cbn [bind]; auto. Qed.
Lemma text_several l : text_of (several l) = texts l.
Proof. unfold texts. induction l; cbn; auto. now rewrite <- IHl. Qed.
Lemma own_several P l : Forall (own_code P) l -> own_code P (several l).
Proof. induction 1; cbn; auto. Qed.

Lemma truncate_end_truncated ss : wf ss -> exists ss', truncate_end ss = Ok ss' /\ wf ss' /\ vcap ss' = vcap ss /\ vcontent ss' = truncated (vcap ss) (vcontent ss).
Proof.
  intros W. destruct (truncate_end_spec ss W) as (ss' & E & W' & C & _ & K). exists ss'. do 3 (split; auto). rewrite K. unfold truncated. f_equal.
  pose proof (vcontent_length ss W) as L. destruct (Nat.le_ge_cases (vsize ss) (vcap ss - 3)).
  - rewrite Nat.min_l by lia. rewrite !firstn_all2 by (unfold str in *; lia). auto.
  - now rewrite Nat.min_r by lia.
Qed.

Lemma meets_or_truncated l ss : Forall (own_code serialises) l -> wf ss ->
  exists ss' ok, append_or_truncate_serialised ss l = Ok (ss', ok) /\ wf ss' /\ vcap ss' = vcap ss /\
    (ok = true <-> length (vcontent ss ++ texts l) <= vcap ss) /\
    (ok = true -> vcontent ss' = vcontent ss ++ texts l) /\
    (ok = false -> exists added, vcontent ss' = truncated (vcap ss) (vcontent ss ++ added) /\
       (Forall (own_code writes_beginning) l -> begins added (texts l))).
Proof.
  intros O W. unfold append_or_truncate_serialised. rewrite append_several.
  destruct (meets_serialised (several l) (own_several _ _ O) ss W) as (ss1 & ok & E & W1 & C1 & x & X & I & A & B). rewrite E. cbn [bind]. rewrite text_several in *.
  destruct ok.
  - exists ss1, true. do 3 (split; auto). split; auto. split; [|discriminate]. intros _. rewrite X. now rewrite A.
  - destruct (truncate_end_truncated ss1 W1) as (ss2 & E2 & W2 & C2 & K2). rewrite E2. cbn [bind]. exists ss2, false. split; auto. split; auto. split; [congruence|]. split; auto.
    split; [discriminate|]. intros _. exists x. rewrite K2, X, C1. split; auto. intros F. apply B, own_several, F.
Qed.

(** ** The recommendation: as for a text *)
Lemma own_weaken (P Q : text -> behaviour -> Prop) s : (forall t f, P t f -> Q t f) -> own_code P s -> own_code Q s.
Proof. intros H. induction s; cbn; intuition. Qed.

Lemma same_string (v w : sstr) B : wf v -> wf w -> vcontent v = vcontent w -> vbuf v = vcontent v ++ skipn (vsize v) B -> vbuf w = vcontent w ++ skipn (vsize w) B -> v = w.
Proof.
  intros Wv Ww E Bv Bw. pose proof (vcontent_length v Wv). pose proof (vcontent_length w Ww). assert (S : vsize v = vsize w) by congruence.
  destruct v as [bv nv], w as [bw nw]. cbn [vbuf vsize] in *. subst nw. f_equal. now rewrite Bv, Bw, E.
Qed.

Lemma as_text s : nothing_by_hand s -> own_code recommended s -> forall ss, wf ss -> append_serialised ss s = append ss (text_of s).
Proof.
  induction s as [|t|a IHa b IHb|g t|t f]; cbn [own_code append_serialised nothing_by_hand text_of]; intros N O ss W; auto; try easy.
  - destruct N as (N1 & N2), O as (O1 & O2). rewrite IHa by auto.
    destruct (append_spec ss (text_of a) W) as (s1 & E1 & W1 & C1 & K1 & Z1 & B1). rewrite E1. cbn [bind].
    destruct (append_spec ss (text_of a ++ text_of b) W) as (s2 & E2 & W2 & C2 & K2 & Z2 & B2). rewrite E2. assert (W' := W). unfold wf in W'.
    unfold str, text in *.
    destruct (Nat.leb_spec (length (text_of a)) (vcap ss - vsize ss)) as [L|L].
    + rewrite IHb by auto. destruct (append_spec s1 (text_of b) W1) as (s3 & E3 & W3 & C3 & K3 & Z3 & B3). rewrite E3. rewrite C1 in *. unfold str, text in *.
      rewrite firstn_all2 in K1 by auto.
      assert (T : vsize s1 = vsize ss + length (text_of a)) by lia.
      assert (V : s3 = s2).
      { apply (same_string _ _ (vbuf ss)); auto.
        - rewrite K3, K1, K2, <- app_assoc. f_equal. rewrite firstn_app. rewrite (firstn_all2 (n := vcap ss - vsize ss)) by auto. f_equal. f_equal. lia.
        - rewrite B3 at 1. f_equal. rewrite B1. rewrite K1. rewrite skipn_app. rewrite app_length. pose proof (vcontent_length ss W) as LC. unfold str in *. rewrite LC.
          rewrite skipn_all2 by (rewrite app_length; unfold str in *; lia). cbn [app]. rewrite skipn_skipn'. f_equal. lia. }
      rewrite V. do 2 f_equal. rewrite app_length, T. destruct (Nat.leb_spec (length (text_of b)) (vcap ss - (vsize ss + length (text_of a)))),
        (Nat.leb_spec (length (text_of a) + length (text_of b)) (vcap ss - vsize ss)); auto; lia.
    + rewrite app_length. destruct (Nat.leb_spec (length (text_of a) + length (text_of b)) (vcap ss - vsize ss)); [lia|]. do 2 f_equal.
      apply (same_string _ _ (vbuf ss)); auto. rewrite K1, K2. f_equal. rewrite firstn_app. replace (_ - length (text_of a)) with 0 by lia. now rewrite firstn_O, app_nil_r.
  - destruct O as (S & M). pose proof (vcontent_length ss W) as L. assert (W' := W). unfold wf in W'. unfold str in *.
    destruct (S (vcap ss) (vcontent ss)) as (added & ok & E & R & I & A); [unfold text, str in *; lia|].
    pose proof (M (vcap ss) (vcontent ss)) as M'. rewrite E in M'. cbn [fst] in M'.
    destruct (own_result f ss (vcontent ss ++ added) ok W E R) as (s1 & E1 & W1 & C1 & K1 & B1). rewrite E1.
    destruct (append_spec ss t W) as (s2 & E2 & W2 & C2 & K2 & Z2 & B2). rewrite E2. unfold str, text in *.
    assert (V : s1 = s2).
    { apply (same_string _ _ (vbuf ss)); auto.
      - rewrite K1, M' by lia. rewrite K2, firstn_app. rewrite firstn_all2 by lia. now rewrite L.
      - rewrite B1 at 1. rewrite K1. rewrite <- (vcontent_length s1 W1). unfold str. now rewrite K1. }
    rewrite V. do 2 f_equal. rewrite app_length, L in I. destruct ok.
    + symmetry. apply Nat.leb_le. assert (true = true) as G by auto. apply I in G. lia.
    + symmetry. apply Nat.leb_gt. destruct (Nat.lt_ge_cases (vcap ss - vsize ss) (length t)); auto. exfalso. assert (false = true) by (apply I; lia). discriminate.
Qed.

Lemma all_as_text l : Forall plainly l -> forall ss, wf ss -> append_all_serialised ss l = append_all ss (map text_of l).
Proof.
  induction 1 as [|s l (N & O) F IH]; intros ss W; cbn [append_all_serialised append_all map]; auto. rewrite as_text by auto.
  destruct (append_spec ss (text_of s) W) as (s1 & E1 & W1 & _). rewrite E1. cbn [bind]. unfold str, text in *. destruct (_ <=? _); auto.
Qed.
Lemma truncated_as_text l ss : Forall plainly l -> wf ss -> append_or_truncate_serialised ss l = append_or_truncate ss (map text_of l).
Proof. intros F W. unfold append_or_truncate_serialised, append_or_truncate. now rewrite all_as_text. Qed.

Lemma plain_value t : plainly (Value t).
Proof. split; exact I. Qed.

Lemma any_of_loop_as_text {A} (show : A -> serialiser) (P : forall a, plainly (show a)) l : forall first ss, wf ss ->
  any_of_loop_serialised show first l ss = any_of_loop (fun a => text_of (show a)) first l ss.
Proof.
  induction l as [|v l IH]; intros first ss W; cbn [any_of_loop_serialised any_of_loop]; auto.
  rewrite truncated_as_text; auto; [|repeat first [apply Forall_cons | apply Forall_nil]; auto using plain_value]. cbn [map text_of].
  match goal with |- context [append_or_truncate ss ?x] => destruct (append_or_truncate_spec ss x W) as (s1 & E1 & W1 & _) end. unfold text, str in *. rewrite !E1. cbn [bind]. apply IH; auto.
Qed.
Lemma wf_any_of_loop {A} (show : A -> text) l : forall first ss, wf ss -> exists ss', any_of_loop show first l ss = Ok ss' /\ wf ss'.
Proof.
  induction l as [|v l IH]; intros first ss W; cbn [any_of_loop]; eauto.
  match goal with |- context [append_or_truncate ss ?x] => destruct (append_or_truncate_spec ss x W) as (s1 & E1 & W1 & _) end. rewrite E1. cbn [bind]. auto.
Qed.
Lemma any_of_as_text {A} (show : A -> serialiser) (P : forall a, plainly (show a)) mm l value status :
  any_of_describe_serialised show mm l value status = any_of_describe (fun a => text_of (show a)) mm l value status.
Proof.
  unfold any_of_describe_serialised, any_of_describe. rewrite truncated_as_text; [|repeat first [apply Forall_cons | apply Forall_nil]; auto using plain_value|apply wf_new]. cbn [map text_of].
  match goal with |- context [append_or_truncate (new_string mm) ?x] => destruct (append_or_truncate_spec (new_string mm) x (wf_new mm)) as (s1 & E1 & W1 & _) end. unfold text, str in *. rewrite !E1. cbn [bind].
  rewrite any_of_loop_as_text by auto. destruct (wf_any_of_loop (fun a => text_of (show a)) l true s1 W1) as (s2 & E2 & W2). unfold text, str in *. rewrite !E2. cbn [bind].
  rewrite truncated_as_text; auto. repeat constructor.
Qed.

(** ** Checks *)
Lemma append_value_meets ss v : wf ss -> (forall s, v = Some s -> own_code serialises s) ->
  exists ss' ok, append_value_serialised ss v = Ok (ss', ok) /\ wf ss' /\ vcap ss' = vcap ss /\
    ok = (length (vcontent ss ++ text_or_mark v) <=? vcap ss) /\ (ok = true -> vcontent ss' = vcontent ss ++ text_or_mark v).
Proof.
  intros W O. destruct v as [s|]; cbn [append_value_serialised text_or_mark].
  - destruct (meets_serialised s (O s eq_refl) ss W) as (ss' & ok & E & W' & C & x & X & I & A & _). exists ss', ok. do 3 (split; auto). split.
    + destruct ok; symmetry; [apply Nat.leb_le; now apply I|]. apply Nat.leb_gt. destruct (Nat.lt_ge_cases (vcap ss) (length (vcontent ss ++ text_of s))); auto.
      exfalso. assert (false = true) by now apply I. discriminate.
    + intros G. now rewrite X, A.
  - destruct (append_content ss (lit "?") W) as (ss' & E & W' & C & K). eexists _, _. do 4 (split; [eassumption || reflexivity|]). intros G. rewrite K. apply firstn_all2. now apply Nat.leb_le.
Qed.

Lemma fits_iff n s : kept n s = if length s <=? n then s else [].
Proof. reflexivity. Qed.

Lemma binary_shown {A B} (c : comparisons A B) (show_l : A -> option serialiser) (show_r : B -> option serialiser)
    (max : nat) (all expected : bool) (macro source : text) (o : operator) (a : A) (b : B) :
  (forall s, show_l a = Some s -> own_code serialises s) -> (forall s, show_r b = Some s -> own_code serialises s) ->
  exists x, binary_serialised max all expected macro source c show_l show_r o a b = Ok x /\
    x_type x = macro /\ x_expected x = source /\
    (x_success x = true <-> c o a b = expected) /\
    (x_success x = false \/ all = true ->
       vcontent (x_actual x) =
         kept max (text_or_mark (show_l a) ++ written (if c o a b then o else opposite o) ++ text_or_mark (show_r b))) /\
    (x_success x = true -> all = false -> vcontent (x_actual x) = []).
Proof.
  intros Ol Or. unfold binary_serialised. set (ok := Bool.eqb (c o a b) expected).
  assert (Q : ok = true <-> c o a b = expected) by apply eqb_true_iff.
  destruct (negb ok || all) eqn:N.
  2: { apply orb_false_iff in N as (N1 & N2). apply negb_false_iff in N1. eexists. split; [reflexivity|]. cbn. repeat split; auto; try apply Q. intros [H|H]; congruence. }
  assert (Z : forall shown, vcontent shown = kept max (text_or_mark (show_l a) ++ written (if c o a b then o else opposite o) ++ text_or_mark (show_r b)) ->
    exists x, Ok (mkexpression macro source shown ok) = Ok x /\ x_type x = macro /\ x_expected x = source /\ (x_success x = true <-> c o a b = expected) /\
    (x_success x = false \/ all = true ->
       vcontent (x_actual x) = kept max (text_or_mark (show_l a) ++ written (if c o a b then o else opposite o) ++ text_or_mark (show_r b))) /\
    (x_success x = true -> all = false -> vcontent (x_actual x) = [])).
  { intros shown E. eexists. split; [reflexivity|]. cbn. repeat split; auto; try apply Q. intros H1 H2. rewrite H1, H2 in N. discriminate. }
  unfold nothing_shown. destruct (append_value_meets (new_string max) (show_l a) (wf_new max) Ol) as (s1 & ok1 & E1 & W1 & C1 & K1 & T1). rewrite E1. cbn [bind].
  rewrite vcap_new, vcontent_new in *. cbn [app] in *. set (op := if c o a b then o else opposite o) in *.
  assert (EO : (if c o a b then op_actual o else op_inverse o) = written op) by (subst op; destruct (c o a b), o; reflexivity). rewrite EO. clear EO.
  destruct ok1.
  - destruct (append_value_spec s1 (Some (written op)) W1) as (s2 & E2 & W2 & C2 & K2). unfold text, str in *. rewrite E2. cbn [bind printed] in *. rewrite C1, (T1 eq_refl) in *.
    unfold text, str in *. destruct (Nat.leb_spec (length (text_or_mark (show_l a) ++ written op)) max) as [L2|L2].
    + destruct (append_value_meets s2 (show_r b) W2 Or) as (s3 & ok3 & E3 & W3 & C3 & K3 & T3). rewrite E3. cbn [bind]. rewrite C2, (K2 L2), <- app_assoc in *. unfold text, str in *.
      apply Z. rewrite fits_iff. unfold text, str in *. rewrite <- K3. destruct ok3; auto.
    + cbn [bind]. apply Z. rewrite cleared, kept_none; auto. unfold text, str in *. rewrite !app_length in *. lia.
  - cbn [bind]. apply Z. rewrite cleared, kept_none; auto. symmetry in K1. apply Nat.leb_gt in K1. unfold text, str in *. rewrite !app_length in *. lia.
Qed.

Lemma unary_shown {A} (to_bool : A -> bool) (show : A -> option serialiser) (max : nat) (all expected : bool) (macro source : text) (a : A) :
  (forall s, show a = Some s -> own_code serialises s) ->
  exists x, unary_serialised max all expected macro source to_bool show a = Ok x /\
    x_type x = macro /\ x_expected x = source /\
    (x_success x = true <-> to_bool a = expected) /\
    (x_success x = false \/ all = true -> vcontent (x_actual x) = kept max (text_or_mark (show a))) /\
    (x_success x = true -> all = false -> vcontent (x_actual x) = []).
Proof.
  intros O. unfold unary_serialised. set (ok := Bool.eqb (to_bool a) expected).
  assert (Q : ok = true <-> to_bool a = expected) by apply eqb_true_iff.
  destruct (negb ok || all) eqn:N.
  2: { apply orb_false_iff in N as (N1 & N2). apply negb_false_iff in N1. eexists. split; [reflexivity|]. cbn. repeat split; auto; try apply Q. intros [H|H]; congruence. }
  unfold nothing_shown. destruct (append_value_meets (new_string max) (show a) (wf_new max) O) as (s1 & ok1 & E1 & W1 & C1 & K1 & T1). rewrite E1. cbn [bind].
  rewrite vcap_new, vcontent_new in *. cbn [app] in *. eexists. split; [reflexivity|]. cbn. split; auto. split; auto. split; [apply Q|]. split.
  - intros _. rewrite fits_iff. unfold text, str in *. rewrite <- K1. destruct ok1; auto.
  - intros H1 H2. rewrite H1, H2 in N. discriminate.
Qed.

(** ** Captures *)
Lemma info_shown n l : Forall (own_code serialises) l -> exists t, info_serialised n l = Ok t /\
  (length (texts l) <= n -> t = texts l) /\
  (n < length (texts l) -> exists added, t = truncated n added /\ (Forall (own_code writes_beginning) l -> begins added (texts l))).
Proof.
  intros O. unfold info_serialised. destruct (meets_or_truncated l (new_string n) O (wf_new n)) as (ss & ok & E & W & C & I & A & B). rewrite E. cbn [bind].
  rewrite vcap_new, vcontent_new in *. cbn [app] in *. eexists. split; [reflexivity|]. split; intros L.
  - now apply A, I.
  - apply B. destruct ok; auto. assert (true = true) as G by auto. apply I in G. lia.
Qed.
Lemma Forall2_weakened {A B} (P Q : A -> B -> Prop) l l' : (forall a b, P a b -> Q a b) -> Forall2 P l l' -> Forall2 Q l l'.
Proof. intros H. induction 1; auto. Qed.
Lemma capture_shown n values : Forall (own_code serialises) values -> forall names l, capture_texts names (map text_of values) = Ok l ->
  exists shown, capture_serialised n names values = Ok shown /\
  Forall2 (fun pieces t => let whole := List.concat pieces in
     (length whole <= n -> t = whole) /\
     (n < length whole -> exists added, t = truncated n added /\ (Forall (own_code writes_beginning) values -> begins added whole))) l shown.
Proof.
  induction 1 as [|v values O F IH]; intros names l H; cbn [map capture_texts capture_serialised] in *.
  - injection H as <-. eauto.
  - destruct (extract_next_name names) as [[name names']|]; [|discriminate]. cbn [bind] in *. destruct (capture_texts names' (map text_of values)) as [rest|] eqn:R; [|discriminate].
    injection H as <-. destruct (IH names' rest R) as (shown & E & G). destruct (info_shown n [Value name; Value (lit " := "); v]) as (t & Et & A & B); [repeat constructor; auto|].
    unfold info_serialised in Et. destruct (append_or_truncate_serialised _ _) as [[ss b]|]; [|discriminate]. cbn [bind] in *. injection Et as <-. rewrite E. cbn [bind].
    eexists. split; [reflexivity|]. constructor.
    + cbv zeta. split; [exact A|]. intros L. destruct (B L) as (x & X & Y). exists x. split; auto. intros Z. inversion Z; subst. apply Y. repeat constructor; auto.
    + eapply Forall2_weakened; [|exact G]. cbv beta zeta. intros p t (P1 & P2). split; auto. intros L. destruct (P2 L) as (x & X & Y). exists x. split; auto. intros Z. inversion Z; auto.
Qed.

(** ** Checks say nothing of a text that is too long *)
Lemma too_long_shown {A} (show : A -> option serialiser) (max : nat) (macro source : text) (a : A) :
  (forall s, show a = Some s -> own_code serialises s) -> max < length (text_or_mark (show a)) ->
  exists x, unary_serialised max true true macro source (fun _ => false) show a = Ok x /\ vcontent (x_actual x) = [].
Proof.
  intros O L. destruct (unary_shown (fun _ => false) show max true true macro source a O) as (x & E & _ & _ & _ & K & _). exists x. split; auto.
  rewrite K by auto. now apply kept_none.
Qed.

(** ** Descriptions of alternatives, by hand *)
Lemma by_hand_alternatives mm grow t : 20 <= mm <= length t ->
  (do ss <- any_of_describe_serialised (fun b : bool => if b then ByHand grow t else Value (lit "a")) mm [false] true DidNotMatch ;; Ok (vcontent ss)) =
  Ok (apostrophe_text ++ lit "..." ++ apostrophe_text ++ lit "a" ++ apostrophe_text ++ lit "}").
Proof.
  intros L. unfold any_of_describe_serialised.
  assert (X : exists s1, append_or_truncate_serialised (new_string mm)
    [Value apostrophe_text; ByHand grow t; Value (apostrophe_text ++ lit " was "); Value (lit "not "); Value (lit "found in {")] = Ok (s1, false) /\
    wf s1 /\ vcap s1 = mm /\ vcontent s1 = apostrophe_text ++ lit "...").
  { unfold append_or_truncate_serialised. cbn [append_all_serialised append_serialised].
    destruct (append_content (new_string mm) apostrophe_text (wf_new mm)) as (s0 & E0 & W0 & C0 & K0). rewrite E0. cbn [bind]. rewrite vcap_new, vcontent_new in *. cbn [app] in *.
    destruct (Nat.leb_spec (length apostrophe_text) mm) as [L0|L0]; [|cbn in L0; lia]. rewrite firstn_all2 in K0 by auto.
    pose proof (vcontent_length s0 W0) as LC. rewrite K0 in LC. cbn [apostrophe_text length] in LC. assert (W0' := W0). unfold wf in W0'. unfold append_by_hand, vavailable. rewrite csub_ok by auto. cbn [bind].
    destruct (Nat.ltb_spec (vcap s0 - vsize s0) (length t)) as [_|G]; [|unfold text, str in *; lia]. cbn [bind].
    destruct (truncate_end_truncated s0 W0) as (s1 & E1 & W1 & C1 & K1). rewrite E1. cbn [bind]. exists s1. split; auto. split; auto. split; [congruence|].
    rewrite K1, K0, C0. unfold truncated. rewrite firstn_all2 by (cbn; lia). now rewrite Nat.min_l by lia. }
  destruct X as (s1 & E1 & W1 & C1 & K1). rewrite E1. cbn [bind any_of_loop_serialised].
  rewrite truncated_as_text; auto; [|repeat first [apply Forall_cons | apply Forall_nil]; auto using plain_value]. cbn [map text_of].
  destruct (append_or_truncate_spec s1 [apostrophe_text; lit "a"; apostrophe_text] W1) as (s2 & E2 & W2 & C2 & K2). unfold text, str in *. rewrite E2. cbn [bind].
  rewrite K1, C1 in *. match type of K2 with _ = (if ?c then _ else _) => assert (Y : c = true) by (apply Nat.leb_le; cbn; lia); rewrite Y in K2; clear Y end.
  rewrite truncated_as_text; auto; [|repeat constructor]. cbn [map text_of].
  destruct (append_or_truncate_spec s2 [lit "}"] W2) as (s3 & E3 & W3 & C3 & K3). unfold text, str in *. rewrite E3. cbn [bind]. f_equal. rewrite K3, K2, C2.
  match goal with |- (if ?c then _ else _) = _ => assert (Y : c = true) by (apply Nat.leb_le; cbn; lia); rewrite Y end. reflexivity.
Qed.
