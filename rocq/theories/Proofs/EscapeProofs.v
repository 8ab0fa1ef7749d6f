(** Proofs about the escape functions of the reporters (C39-C41). *)
From Verif.Spec Require Import VectorSpec TextSpec EscapeSpec PrintSpec Events.
From Verif.Model Require Import Base Vector StringUtil Integer Print Filter Run Reporters.
From Verif.Proofs Require Import Lists VectorProofs AppendProofs ReplaceProofs.
Local Open Scope list_scope.
Local Open Scope nat_scope.

Definition enc (l : code) (c : ascii) : str :=
  match List.find (fun x => aeqb (fst x) c) l with Some x => snd x | None => [c] end.
Definition encode (l : code) (s : str) : str := flat_map (enc l) s.

Lemma aeqb_eq a b : aeqb a b = true <-> a = b.
Proof. apply Ascii.eqb_eq. Qed.
Lemma aeqb_neq a b : aeqb a b = false <-> a <> b.
Proof. apply Ascii.eqb_neq. Qed.

Lemma enc_plain_char l c : ~ special l c -> enc l c = [c].
Proof.
  intros N. unfold enc. destruct (List.find _ l) as [x|] eqn:E; auto.
  apply List.find_some in E as [In_ E]. apply aeqb_eq in E. subst. destruct N. now apply in_map.
Qed.
Lemma enc_special_char l c e : NoDup (map fst l) -> In (c, e) l -> enc l c = e.
Proof.
  intros D I. unfold enc. induction l as [|[c' e'] l IH]; [destruct I|]. cbn [List.find fst map] in *.
  inversion D as [|x y N D' E]; subst. destruct (aeqb c' c) eqn:Q.
  - apply aeqb_eq in Q. subst. destruct I as [I|I]; [now injection I as ->|].
    destruct N. apply (in_map fst) in I. exact I.
  - destruct I as [I|I]; [injection I as -> ->|auto]. apply aeqb_neq in Q. congruence.
Qed.

Lemma encoded_encode l s t : NoDup (map fst l) -> encoded l s t <-> t = encode l s.
Proof.
  intros D. split.
  - induction 1; cbn [encode flat_map]; auto.
    + rewrite enc_plain_char by auto. cbn. now f_equal.
    + rewrite (enc_special_char l c e) by auto. now f_equal.
  - intros ->. induction s as [|c s IH]; cbn [encode flat_map]; [constructor|].
    unfold enc at 1. destruct (List.find _ l) as [[c' e]|] eqn:E.
    + apply List.find_some in E as [I E]. cbn in E. apply aeqb_eq in E. subst. now constructor.
    + cbn. constructor; auto. intros S. apply in_map_iff in S as ([c' e] & Q & S). cbn in Q. subst.
      apply (List.find_none _ _ E) in S. cbn in S. apply aeqb_neq in S. congruence.
Qed.

(** ** One stage *)
Lemma encode_nil l : encode l [] = []. Proof. reflexivity. Qed.
Lemma encode_cons l c s : encode l (c :: s) = enc l c ++ encode l s. Proof. reflexivity. Qed.
Lemma encode_app l a b : encode l (a ++ b) = encode l a ++ encode l b.
Proof. apply flat_map_app. Qed.

Lemma enc_one c e x : enc [(c, e)] x = if aeqb c x then e else [x].
Proof. unfold enc. cbn [List.find fst]. destruct (aeqb c x); auto. Qed.

Lemma encode_id l s : (forall c, In c s -> ~ special l c) -> encode l s = s.
Proof.
  induction s as [|c s IH]; intros H; auto. rewrite encode_cons, IH by (intros; apply H; now right).
  rewrite enc_plain_char by (apply H; now left). reflexivity.
Qed.

Lemma replaced_one c e s : replaced [c] e s (encode [(c, e)] s).
Proof.
  assert (P : [c] <> []) by discriminate.
  remember (length s) as n. revert s Heqn. induction n as [n IH] using lt_wf_ind. intros s ->.
  destruct (find s [c]) eqn:F.
  - destruct (find_first _ _ _ F) as (a & b & -> & _ & A). rewrite !encode_app.
    replace (encode [(c, e)] [c]) with e by (rewrite encode_cons, enc_one; unfold aeqb; rewrite Ascii.eqb_refl; cbn; now rewrite app_nil_r).
    replace (encode [(c, e)] a) with a.
    + constructor; auto. apply (IH (length b)); auto. rewrite !app_length. cbn. lia.
    + symmetry. apply encode_id. intros x I S. destruct S as [<-|[]]. cbn [fst] in I.
      destruct (in_split _ _ I) as (u & v & ->). specialize (A u (v ++ [c])). rewrite <- app_assoc in A.
      specialize (A eq_refl). destruct v; discriminate.
  - apply find_none_occurs in F. rewrite encode_id.
    + now constructor.
    + intros x I S. destruct S as [<-|[]]. cbn [fst] in I. destruct (in_split _ _ I) as (u & v & ->).
      apply F. now exists u, v.
Qed.

(** ** Chains *)

(** No replacement contains a character that is replaced later. *)
Fixpoint staged (l : code) : Prop :=
  match l with
  | [] => True
  | (_, e) :: l' => (forall c, In c e -> ~ special l' c) /\ staged l'
  end.

Lemma encode_compose c e l s : (forall x, In x e -> ~ special l x) -> encode l (encode [(c, e)] s) = encode ((c, e) :: l) s.
Proof.
  intros H. induction s as [|x s IH]; auto. rewrite !encode_cons, encode_app, IH. f_equal.
  rewrite enc_one. change (enc ((c, e) :: l) x) with (match (if aeqb c x then Some (c, e) else List.find (fun y => aeqb (fst y) x) l) with Some y => snd y | None => [x] end). destruct (aeqb c x).
  - now apply encode_id.
  - rewrite encode_cons. cbn [encode flat_map]. rewrite app_nil_r. reflexivity.
Qed.

Lemma enc_length (l : code) c : Forall (fun x : ascii * text => snd x <> []) l -> 1 <= length (enc l c).
Proof.
  intros F. unfold enc. destruct (List.find (fun x : ascii * text => aeqb (fst x) c) l) eqn:E; [|apply le_n]. apply List.find_some in E as [I _].
  rewrite Forall_forall in F. apply F in I. destruct (snd p); [congruence|cbn; lia].
Qed.
Lemma encode_length (l : code) s : Forall (fun x : ascii * text => snd x <> []) l -> length s <= length (encode l s).
Proof.
  intros F. induction s as [|c s IH]; auto. rewrite encode_cons, app_length. pose proof (enc_length l c F). cbn. lia.
Qed.

Definition strs (l : code) : list (str * str) := map (fun x => ([fst x], snd x)) l.

(** What a chain does, exactly, when the encoded text fits; and in general. *)
Theorem chain_spec (l : code) : staged l -> Forall (fun x : ascii * text => 2 <= length (snd x)) l -> forall ss, wf ss ->
  exists ss', escape_chain (strs l) ss = Ok (ss', length (encode l (vcontent ss)) <=? vcap ss) /\ wf ss' /\ vcap ss' = vcap ss /\
    (length (encode l (vcontent ss)) <= vcap ss -> vcontent ss' = encode l (vcontent ss)) /\
    (vcap ss < length (encode l (vcontent ss)) -> exists l1 c e l2 pre suf,
       l = l1 ++ (c, e) :: l2 /\ encode l1 (vcontent ss) = pre ++ suf /\ suf <> [] /\
       length (encode l1 (vcontent ss)) <= vcap ss < length (encode [(c, e)] (encode l1 (vcontent ss))) /\
       vcontent ss' = encode [(c, e)] pre ++ dots (Nat.min 3 (vcap ss))).
Proof.
  induction l as [|[c e] l IH]; intros St Fo ss W; cbn [strs map fst snd].
  - cbn [escape_chain]. exists ss. assert (L : length (vcontent ss) <= vcap ss) by (rewrite vcontent_length by auto; exact W).
    rewrite (encode_id [] (vcontent ss)) by (intros ? ? []). destruct (Nat.leb_spec (length (vcontent ss)) (vcap ss)); [|lia].
    repeat split; auto. lia.
  - cbn [staged] in St. destruct St as [St1 St2]. inversion Fo as [|x y F1 F2]; subst. cbn [snd] in F1.
    cbn [escape_chain]. fold (strs l).
    destruct (escape_exact [c] e ltac:(discriminate) ltac:(cbn; lia) ss _ (vcap ss) W (replaced_one c e (vcontent ss)) (le_n _))
      as (ss1 & E & W1 & C1 & K1 & K2).
    rewrite E. cbn [bind]. rewrite <- (encode_compose c e l) by auto.
    assert (NE : Forall (fun x : ascii * text => snd x <> []) l) by (apply Forall_forall; intros x I; rewrite Forall_forall in F2; apply F2 in I; destruct (snd x); cbn in *; [lia|discriminate]).
    pose proof (encode_length l (encode [(c, e)] (vcontent ss)) NE) as M.
    destruct (Nat.leb_spec (length (encode [(c, e)] (vcontent ss))) (vcap ss)) as [Le|Gt].
    + destruct (IH St2 F2 ss1 W1) as (ss2 & E2 & W2 & C2 & K3 & K4). rewrite (K1 Le), C1 in *.
      exists ss2. rewrite E2. repeat split; auto.
      * intros Q. destruct (K4 Q) as (l1 & c' & e' & l2 & pre & suf & -> & P & I & F & R).
        exists ((c, e) :: l1), c', e', l2, pre, suf. rewrite <- (encode_compose c e l1); [repeat split; tauto|].
        intros x Ix S. apply (St1 x Ix). unfold special. rewrite map_app. apply in_or_app. now left.
    + exists ss1. assert (H : vcap ss < length (encode l (encode [(c, e)] (vcontent ss)))) by (eapply Nat.lt_le_trans; [exact Gt|exact M]).
      repeat split; auto; [do 2 f_equal; symmetry; apply Nat.leb_gt; exact H|intros; exfalso; unfold text, str in *; lia|]. intros _. destruct (K2 Gt) as (pre & suf & u & P & R & U).
      exists [], c, e, l, pre, suf. rewrite (encode_id [] (vcontent ss)) by (intros ? ? []). split; auto. split; auto. split; [|split; [split|]]; auto.
      * intros ->. rewrite app_nil_r in P. subst pre.
        assert (u = encode [(c, e)] (vcontent ss)) by (eapply replaced_deterministic; [exact R|apply replaced_one]). subst u.
        pose proof (vcontent_length ss1 W1) as L1. rewrite U, app_length in L1. unfold wf in W1. lia.
      * rewrite vcontent_length by auto. exact W.
      * rewrite U. f_equal. eapply replaced_deterministic; [exact R|apply replaced_one].
Qed.

(** ** The two codes *)
Lemma xml_escape_chain ss : xml_escape ss = escape_chain (strs xml_entities) ss.
Proof. reflexivity. Qed.
Lemma tc_escape_chain ss : tc_escape ss = escape_chain (strs teamcity_code) ss.
Proof. reflexivity. Qed.

Lemma xml_staged : staged xml_entities.
Proof.
  cbn -[ascii_of_nat]. repeat split; intros c H S; cbn -[ascii_of_nat] in H, S;
  repeat (destruct H as [<-|H]; [repeat (destruct S as [S|S]; [discriminate S|]); destruct S|]); destruct H.
Qed.
Lemma tc_staged : staged teamcity_code.
Proof.
  cbn -[ascii_of_nat]. repeat split; intros c H S; cbn -[ascii_of_nat] in H, S;
  repeat (destruct H as [<-|H]; [repeat (destruct S as [S|S]; [discriminate S|]); destruct S|]); destruct H.
Qed.
Ltac long_entries := repeat (apply Forall_cons; [cbn; lia|]); apply Forall_nil.
Lemma xml_long : Forall (fun x : ascii * text => 2 <= length (snd x)) xml_entities.
Proof. long_entries. Qed.
Lemma tc_long : Forall (fun x : ascii * text => 2 <= length (snd x)) teamcity_code.
Proof. long_entries. Qed.
Ltac distinct := repeat (apply NoDup_cons; [intros H; repeat (destruct H as [H|H]; [discriminate H|]); destruct H|]); apply NoDup_nil.
Lemma xml_distinct : NoDup (map fst xml_entities).
Proof. distinct. Qed.
Lemma tc_distinct : NoDup (map fst teamcity_code).
Proof. distinct. Qed.

(** ** What [make_escaped] returns *)
Lemma distinct_prefix (l1 : code) x l2 : NoDup (map fst (l1 ++ x :: l2)) -> NoDup (map fst l1).
Proof.
  rewrite map_app. induction (map fst l1) as [|c m IH]; intros H; [apply NoDup_nil|]. inversion H as [|y z N D]; subst.
  apply NoDup_cons; auto. intros I. apply N. apply in_or_app. now left.
Qed.
Lemma distinct_one (c : ascii) (e : text) : NoDup (map fst [(c, e)]).
Proof. apply NoDup_cons; [intros []|apply NoDup_nil]. Qed.

Lemma chain_result l ss : staged l -> Forall (fun x : ascii * text => 2 <= length (snd x)) l -> NoDup (map fst l) -> wf ss ->
  exists ss' b t, escape_chain (strs l) ss = Ok (ss', b) /\ wf ss' /\ vcap ss' = vcap ss /\ encoded l (vcontent ss) t /\
    b = (length t <=? vcap ss) /\
    (length t <= vcap ss -> vcontent ss' = t) /\ (vcap ss < length t -> overflowed l (vcap ss) (vcontent ss) (vcontent ss')).
Proof.
  intros St Fo D W. destruct (chain_spec l St Fo ss W) as (ss' & E & W' & C & K1 & K2).
  exists ss', (length (encode l (vcontent ss)) <=? vcap ss), (encode l (vcontent ss)). split; [exact E|]. repeat split; auto; [now apply encoded_encode|].
  intros H. destruct (K2 H) as (l1 & c & e & l2 & pre & suf & -> & P & N & F & R).
  exists l1, c, e, l2, (encode l1 (vcontent ss)), (encode [(c, e)] (encode l1 (vcontent ss))), pre, suf, (encode [(c, e)] pre).
  split; auto. split; [apply encoded_encode; auto; eapply distinct_prefix; eauto|].
  split; [apply encoded_encode; auto; apply distinct_one|]. repeat split; try tauto.
  apply encoded_encode; auto. apply distinct_one.
Qed.

Lemma fit_id n s : length s <= n -> fit n s = s.
Proof. intros H. unfold fit. destruct (Nat.leb_spec (length s) n); auto. lia. Qed.

Lemma new_truncated n s : exists ss b, append_or_truncate (new_string n) [s] = Ok (ss, b) /\ wf ss /\ vcap ss = n /\ vcontent ss = fit n s.
Proof.
  destruct (append_or_truncate_spec (new_string n) [s] (wf_new n)) as (ss & E & W & C & K).
  rewrite vcap_new, vcontent_new in *. cbn [List.concat app] in *. rewrite app_nil_r in *. exists ss. eexists. split; [exact E|].
  repeat split; auto.
Qed.

Lemma make_escaped_result l (esc : sstr -> res (sstr * bool)) n s :
  (forall ss, esc ss = escape_chain (strs l) ss) ->
  staged l -> Forall (fun x : ascii * text => 2 <= length (snd x)) l -> NoDup (map fst l) ->
  exists out t, (do (ss, _) <- append_or_truncate (new_string n) [s] ;; do (ss1, _) <- esc ss ;; Ok (vcontent ss1)) = Ok out /\
    length out <= n /\ encoded l (fit n s) t /\
    (length t <= n -> out = t) /\ (n < length t -> overflowed l n (fit n s) out).
Proof.
  intros Q St Fo D. destruct (new_truncated n s) as (ss & b & E & W & C & K). rewrite E. cbn [bind]. rewrite Q.
  destruct (chain_result l ss St Fo D W) as (ss' & b' & t & E' & W' & C' & K1 & B & K2 & K3). rewrite E'. cbn [bind].
  rewrite C in *. rewrite K in *. exists (vcontent ss'), t. split; auto. split; [|auto].
  rewrite vcontent_length by auto. unfold wf in W'. lia.
Qed.

Lemma xml_made mm s : exists out t, xml_make_escaped mm s = Ok out /\ length out <= mm /\ encoded xml_entities (fit mm s) t /\
    (length t <= mm -> out = t) /\ (mm < length t -> overflowed xml_entities mm (fit mm s) out).
Proof. apply (make_escaped_result xml_entities xml_escape mm s xml_escape_chain xml_staged xml_long xml_distinct). Qed.
Lemma tc_made mm s : exists out t, tc_make_escaped mm s = Ok out /\ length out <= mm /\ encoded teamcity_code (fit mm s) t /\
    (length t <= mm -> out = t) /\ (mm < length t -> overflowed teamcity_code mm (fit mm s) out).
Proof. apply (make_escaped_result teamcity_code tc_escape mm s tc_escape_chain tc_staged tc_long tc_distinct). Qed.

Lemma encoded_unique l s t t' : NoDup (map fst l) -> encoded l s t -> encoded l s t' -> t = t'.
Proof. intros D H H'. apply encoded_encode in H, H'; auto. congruence. Qed.
Lemma encoded_total l s : NoDup (map fst l) -> exists t, encoded l s t.
Proof. intros D. exists (encode l s). now apply encoded_encode. Qed.
Lemma encoded_longer (l : code) s t : Forall (fun x : ascii * text => 2 <= length (snd x)) l -> encoded l s t -> length s <= length t.
Proof.
  intros F. induction 1; cbn [length]; try lia. rewrite app_length. rewrite Forall_forall in F. apply F in H. cbn in H. lia.
Qed.

Theorem xml_faithful : forall (ss : sstr) (t : text), wf ss -> encoded xml_entities (vcontent ss) t -> length t <= vcap ss ->
  exists ss', xml_escape ss = Ok (ss', true) /\ vcontent ss' = t.
Proof.
  intros ss t W E L. destruct (chain_result _ ss xml_staged xml_long xml_distinct W) as (ss' & b & t' & R & _ & _ & E' & B & K & _).
  rewrite (encoded_unique _ _ _ _ xml_distinct E E') in *. exists ss'. rewrite xml_escape_chain, R.
  destruct (Nat.leb_spec (length t') (vcap ss)); [|lia]. subst b. auto.
Qed.
Theorem tc_faithful : forall (ss : sstr) (t : text), wf ss -> encoded teamcity_code (vcontent ss) t -> length t <= vcap ss ->
  exists ss', tc_escape ss = Ok (ss', true) /\ vcontent ss' = t.
Proof.
  intros ss t W E L. destruct (chain_result _ ss tc_staged tc_long tc_distinct W) as (ss' & b & t' & R & _ & _ & E' & B & K & _).
  rewrite (encoded_unique _ _ _ _ tc_distinct E E') in *. exists ss'. rewrite tc_escape_chain, R.
  destruct (Nat.leb_spec (length t') (vcap ss)); [|lia]. subst b. auto.
Qed.
Theorem xml_made_fits : forall (mm : nat) (s t : text), encoded xml_entities s t -> length t <= mm -> xml_make_escaped mm s = Ok t.
Proof.
  intros mm s t E L. destruct (xml_made mm s) as (out & t' & R & _ & E' & K & _).
  rewrite fit_id in E' by (pose proof (encoded_longer _ _ _ xml_long E); lia).
  rewrite (encoded_unique _ _ _ _ xml_distinct E E') in *. rewrite R. f_equal. auto.
Qed.
Theorem tc_made_fits : forall (mm : nat) (s t : text), encoded teamcity_code s t -> length t <= mm -> tc_make_escaped mm s = Ok t.
Proof.
  intros mm s t E L. destruct (tc_made mm s) as (out & t' & R & _ & E' & K & _).
  rewrite fit_id in E' by (pose proof (encoded_longer _ _ _ tc_long E); lia).
  rewrite (encoded_unique _ _ _ _ tc_distinct E E') in *. rewrite R. f_equal. auto.
Qed.

(** Decoding is unambiguous. *)
Lemma decode_unique (l : code) x : (forall c e, In (c, e) l -> exists e', e = x :: e') -> special l x ->
  (forall c e c' e' t t', In (c, e) l -> In (c', e') l -> e ++ t = e' ++ t' -> c = c' /\ t = t') ->
  forall t s s', encoded l s t -> encoded l s' t -> s = s'.
Proof.
  intros Hd Sp Pf. intros t s s' H. revert s'. induction H as [|c s t N H IH|c e s t N H IH]; intros s' H'.
  - inversion H' as [|c s t N H Q1 Q2|c e s t N H Q1 Q2]; subst; auto. destruct (Hd _ _ N) as (e' & ->). discriminate.
  - inversion H' as [|c' s0 t' N' H0 Q1 Q2|c' e s0 t' N' H0 Q1 Q2]; subst.
    + f_equal. auto.
    + destruct (Hd _ _ N') as (e' & ->). injection Q2 as -> _. contradiction.
  - inversion H' as [Q1 Q2|c' s0 t' N' H0 Q1 Q2|c' e0 s0 t' N' H0 Q1 Q2]; subst.
    + destruct (Hd _ _ N) as (e' & ->). discriminate.
    + destruct (Hd _ _ N) as (e' & ->). injection Q2 as -> _. contradiction.
    + destruct (Pf _ _ _ _ _ _ N' N Q2) as [-> ->]. f_equal. auto.
Qed.
Ltac entries H := repeat (destruct H as [H|H]; [injection H as <- <-|]); try destruct H.
Theorem xml_decode : forall t s s', encoded xml_entities s t -> encoded xml_entities s' t -> s = s'.
Proof.
  apply (decode_unique xml_entities "&"%char).
  - intros c e H. entries H; eexists; reflexivity.
  - now left.
  - intros c e c' e' t t' H H' E. entries H; entries H'; cbn in E; try discriminate E; injection E as E; auto.
Qed.
Theorem tc_decode : forall t s s', encoded teamcity_code s t -> encoded teamcity_code s' t -> s = s'.
Proof.
  apply (decode_unique teamcity_code "|"%char).
  - intros c e H. entries H; eexists; reflexivity.
  - now left.
  - intros c e c' e' t t' H H' E. entries H; entries H'; cbn in E; try discriminate E; injection E as E; auto.
Qed.

(** No raw special character. *)
Theorem xml_no_raw : forall s t a c b, encoded xml_entities s t -> t = a ++ c :: b -> special xml_entities c ->
  c = "&"%char /\ exists x e b', In (x, e) xml_entities /\ c :: b = e ++ b'.
Proof.
  intros s t a c b H. revert a. induction H as [|d s t N H IH|d e s t N H IH]; intros a E S.
  - destruct a; discriminate.
  - destruct a as [|d' a]; injection E as -> E; [contradiction|]. eapply IH; eauto.
  - destruct (Nat.le_gt_cases (length e) (length a)) as [L|L].
    + destruct (app_prefix_le _ _ _ _ E L) as (m & -> & Q). apply (IH m); auto.
    + destruct a as [|d' a].
      * assert (c = "&"%char) by (entries N; injection E as E; congruence). split; auto. now exists d, e, t.
      * exfalso. assert (I : In c (tl e)).
        { destruct e as [|e0 e]; [cbn in L; lia|]. injection E as _ E. cbn [length tl] in *.
          assert (c = nth (length a) e c).
          { rewrite <- (app_nth1 e t) by lia. rewrite E, app_nth2, Nat.sub_diag by lia. reflexivity. }
          rewrite H0. apply nth_In. lia. }
        clear - N S I. assert (T : forall x y, In (x, y) xml_entities -> forall z, In z (tl y) -> ~ special xml_entities z).
        { clear. intros x y H z I S. entries H; cbn -[ascii_of_nat] in I, S;
            repeat (destruct I as [<-|I]; [repeat (destruct S as [S|S]; [discriminate S|]); destruct S|]); destruct I. }
        eapply T; eauto.
Qed.
Theorem tc_no_raw : forall s t a c b, encoded teamcity_code s t -> t = a ++ c :: b -> special teamcity_code c -> c <> "|"%char ->
  exists a', a = a' ++ ["|"%char].
Proof.
  intros s t a c b H. revert a. induction H as [|d s t N H IH|d e s t N H IH]; intros a E S NB.
  - destruct a; discriminate.
  - destruct a as [|d' a]; injection E as -> E; [contradiction|]. destruct (IH a E S NB) as (a' & ->). now exists (d' :: a').
  - assert (Le : exists z, e = ["|"%char; z]) by (entries N; eexists; reflexivity). destruct Le as (z & ->).
    destruct a as [|d1 [|d2 a]]; cbn in E.
    + injection E as <- E. congruence.
    + injection E as <- _ _. now exists [].
    + injection E as <- <- E. destruct (IH a E S NB) as (a' & ->). now exists ("|"%char :: z :: a').
Qed.

(** ** Truncation *)
Lemma encode_one_id c e s : ~ In c s -> encode [(c, e)] s = s.
Proof. intros N. apply encode_id. intros x I [<-|[]]. contradiction. Qed.

Theorem xml_raw n : 8 <= n -> exists s out, xml_make_escaped n s = Ok ("<"%char :: out).
Proof.
  intros N. set (s := "<"%char :: repeat "&"%char (n - 1)).
  assert (Ls : length s = n) by (unfold s; cbn [length]; rewrite repeat_length; lia).
  destruct (new_truncated n s) as (ss & b & E & W & C & K). rewrite fit_id in K by lia.
  assert (Le : forall k, length (encode [("&"%char, lit "&amp;")] (repeat "&"%char k)) = 5 * k).
  { induction k; auto. cbn [repeat]. rewrite encode_cons, app_length, IHk. change (length (enc [("&"%char, lit "&amp;")] "&"%char)) with 5. lia. }
  destruct (escape_longest "&"%char (lit "&amp;") ltac:(cbn; lia) ss _ (vcap ss) W (replaced_one _ _ _) (le_n _))
    as (ss' & pre & suf & u & R & S & Ru & K' & _ & M).
  { rewrite K. unfold s. rewrite encode_cons, app_length, C.
    change (n < 1 + length (encode [("&"%char, lit "&amp;")] (repeat "&"%char (n - 1)))). rewrite Le. lia. }
  exists s. assert (Q : exists v, u = "<"%char :: v).
  { assert (1 <= length u).
    { apply (M ["<"%char] (repeat "&"%char (n - 1)) ["<"%char]); [rewrite K; reflexivity| |constructor; rewrite occurs1; intros [I|[]]; discriminate|rewrite C; cbn; lia].
      right. destruct (n - 1) as [|k] eqn:Q; [lia|]. now exists (repeat "&"%char k). }
    assert (Ep : u = encode [("&"%char, lit "&amp;")] pre) by (eapply replaced_deterministic; [exact Ru|apply replaced_one]).
    destruct pre as [|c pre]; [subst u; cbn in H; lia|]. rewrite K in S. unfold s in S. injection S as <- S.
    subst u. rewrite encode_cons. eexists. reflexivity. }
  destruct Q as (v & ->). exists (v ++ dots (Nat.min 3 (vcap ss))).
  unfold xml_make_escaped. unfold str in *. rewrite E. cbn [bind]. unfold xml_escape. cbn [escape_chain].
  unfold lit at 1. cbn [list_ascii_of_string]. rewrite R. cbn [bind]. now rewrite K'.
Qed.

Theorem xml_cut n : 8 <= n -> exists s a, xml_make_escaped n s = Ok (a ++ lit "&am...") /\ ~ In "&"%char a.
Proof.
  intros N. set (a := repeat "a"%char (n - 6)). set (s := a ++ ["&"%char; ascii_of_nat 34]).
  assert (La : length a = n - 6) by (unfold a; rewrite repeat_length; lia).
  assert (Ls : length s = n - 4) by (unfold s; rewrite app_length, La; cbn; lia).
  assert (Na : forall c, In c a -> c = "a"%char) by (intros c I; now apply repeat_spec in I).
  exists s, a. split; [|intros I; apply Na in I; discriminate].
  destruct (new_truncated n s) as (ss & b & E & W & C & K). rewrite fit_id in K by lia.
  unfold xml_make_escaped. unfold str in *. rewrite E. cbn [bind]. unfold xml_escape. cbn [escape_chain].
  change (lit "&") with ["&"%char].
  assert (E1 : encode [("&"%char, lit "&amp;")] s = a ++ lit "&amp;" ++ [ascii_of_nat 34]).
  { unfold s. rewrite encode_app, encode_one_id by (intros I; apply Na in I; discriminate). reflexivity. }
  assert (RE : replaced ["&"%char] (lit "&amp;") (vcontent ss) (a ++ lit "&amp;" ++ [ascii_of_nat 34])).
  { rewrite K. rewrite <- E1. exact (replaced_one _ _ _). }
  destruct (escape_exact ["&"%char] (lit "&amp;") ltac:(discriminate) ltac:(cbn; lia) ss _ (vcap ss) W RE (le_n _))
    as (ss1 & R1 & W1 & C1 & K1 & _).
  assert (L1 : length (a ++ lit "&amp;" ++ [ascii_of_nat 34]) = n) by (rewrite app_length, La; cbn; lia).
  unfold str, text in *. rewrite L1, C in *. rewrite R1. cbn [bind]. rewrite Nat.leb_refl. cbn [bind].
  specialize (K1 (le_n _)). rewrite C1. unfold dquote.
  set (q := ascii_of_nat 34) in *. assert (Nq : q <> "a"%char /\ q <> "&"%char) by (split; discriminate).
  assert (Nq' : forall c, In c (a ++ lit "&amp;") -> c <> q).
  { intros c I. apply in_app_iff in I as [I|I]; [apply Na in I; subst c; unfold q; discriminate|].
    cbn in I. unfold q. repeat (destruct I as [<-|I]; [discriminate|]). destruct I. }
  assert (Eq : encode [(q, lit "&quot;")] (vcontent ss1) = (a ++ lit "&amp;") ++ lit "&quot;").
  { rewrite K1, (app_assoc a), encode_app, encode_one_id by (intros I; now apply Nq' in I).
    reflexivity. }
  assert (RQ : replaced [q] (lit "&quot;") (vcontent ss1) ((a ++ lit "&amp;") ++ lit "&quot;")).
  { rewrite <- Eq. exact (replaced_one _ _ _). }
  destruct (escape_longest q (lit "&quot;") ltac:(cbn; lia) ss1 _ n W1 RQ) as (ss2 & pre & suf & u & R2 & S & Ru & K2 & B & _).
  { lia. }
  { rewrite !app_length, C1, La. cbn. lia. }
  unfold str, text in *. rewrite R2. cbn [bind]. rewrite K2, C1. f_equal.
  assert (Ep : u = encode [(q, lit "&quot;")] pre) by (eapply replaced_deterministic; [exact Ru|apply replaced_one]).
  assert (Lu : length u + 3 <= n).
  { assert (F2 : length (vcontent ss2) <= n).
    { destruct (escape_exact [q] (lit "&quot;") ltac:(discriminate) ltac:(cbn; lia) ss1 _ n W1 (replaced_one _ _ _)) as (ss3 & R3 & W3 & C3 & _); [lia|].
      rewrite R2 in R3. injection R3 as <- _. rewrite vcontent_length by auto. unfold wf in W3. lia. }
    rewrite K2, app_length, C1 in F2. unfold dots in F2. rewrite repeat_length in F2. lia. }
  assert (Lp : length pre <= length u).
  { rewrite Ep. apply encode_length. repeat constructor. discriminate. }
  rewrite K1 in S.
  assert (Pre : pre = a ++ lit "&am").
  { destruct B as [(x & ->)|[(y & ->)|B]].
    - exfalso. rewrite app_length in Lp. cbn [length] in Lp.
      assert (In q ((a ++ lit "&amp;"))).
      { destruct suf as [|z suf] using rev_ind.
        - exfalso. apply (f_equal (@length _)) in S. rewrite !app_length in S. cbn in S. rewrite La in S. lia.
        - clear IHsuf. rewrite (app_assoc a) in S. rewrite (app_assoc (x ++ [q])) in S. apply app_inj_tail in S as [-> _].
          rewrite !in_app_iff. cbn. tauto. }
      now apply (Nq' q).
    - exfalso. assert (length pre = n - 1 \/ In q (a ++ lit "&amp;")).
      { destruct y as [|z y] using rev_ind.
        - left. rewrite (app_assoc a) in S. apply app_inj_tail in S as [<- _]. rewrite app_length, La. cbn. lia.
        - right. clear IHy. change (q :: y ++ [z]) with ((q :: y) ++ [z]) in S. rewrite (app_assoc a), (app_assoc pre) in S.
          apply app_inj_tail in S as [-> _]. rewrite in_app_iff. cbn. tauto. }
      destruct H as [H|H]; [lia|now apply (Nq' q)].
    - rewrite C1 in B. change (lit "&amp;" ++ [q]) with (lit "&am" ++ (lit "p;" ++ [q])) in S. rewrite (app_assoc a) in S.
      assert (length pre = length (a ++ lit "&am")) by (rewrite app_length, La; cbn; lia).
      destruct (app_prefix_le _ _ _ _ S (Nat.eq_le_incl _ _ (eq_sym H))) as (m & Q & _).
      rewrite Q, app_length in H. assert (Lm : length m = 0) by lia. destruct m; [|discriminate]. now rewrite Q, app_nil_r. }
  rewrite Ep, Pre, encode_one_id.
  - rewrite <- app_assoc. rewrite Nat.min_l by lia. reflexivity.
  - intros I. apply (Nq' q); auto. rewrite in_app_iff in *. destruct I as [I|I]; [tauto|right]. cbn in *. tauto.
Qed.

(** Safe in any case: texts with special characters of one kind only. *)
Lemma dots_in n c : In c (dots n) -> c = "."%char.
Proof. apply repeat_spec. Qed.
Lemma fit_in n s c : In c (fit n s) -> In c s \/ c = "."%char.
Proof.
  unfold fit. destruct (length s <=? n); auto. unfold truncated. rewrite in_app_iff. intros [I|I].
  - left. rewrite <- (firstn_skipn (n - 3) s). apply in_or_app. auto.
  - right. now apply dots_in in I.
Qed.

Lemma encode_in (l : code) s x : In x (encode l s) -> In x s \/ exists c e, In (c, e) l /\ In c s /\ In x e.
Proof.
  unfold encode. rewrite in_flat_map. intros (c & I & J). unfold enc in J. destruct (List.find _ l) as [[c' e]|] eqn:F.
  - apply List.find_some in F as [F1 F2]. cbn in F2. apply aeqb_eq in F2. subst. right. now exists c, e.
  - destruct J as [<-|[]]. now left.
Qed.
Lemma staged_later (l1 : code) c e l2 : staged (l1 ++ (c, e) :: l2) -> forall c' e', In (c', e') l1 -> ~ In c e'.
Proof.
  induction l1 as [|[c1 e1] l1 IH]; intros St c' e' I J; [destruct I|]. cbn [app staged] in St. destruct St as [St1 St2].
  destruct I as [I|I]; [injection I as -> ->|eapply IH; eauto]. apply (St1 c J). unfold special. rewrite map_app. apply in_or_app. right. now left.
Qed.
Lemma one_kind (l : code) n (w out : text) c0 :
  staged l -> NoDup (map fst l) -> ~ special l "."%char -> (forall c, In c w -> special l c -> c = c0) -> overflowed l n w out ->
  exists s, encoded l s out.
Proof.
  intros St D Nd On (l1 & c & e & l2 & full & next & pre & suf & u & El & E1 & E2 & Ln & Ep & _ & E3 & ->).
  assert (D1 : NoDup (map fst l1)) by (subst l; eapply distinct_prefix; eauto).
  apply encoded_encode in E1; auto. apply encoded_encode in E2; [|apply distinct_one]. apply encoded_encode in E3; [|apply distinct_one].
  assert (Ic : In c full).
  { destruct (in_dec ascii_dec c full) as [|N]; auto. rewrite encode_one_id in E2 by auto. subst next. lia. }
  assert (Sc : special l c) by (subst l; unfold special; rewrite map_app; apply in_or_app; right; now left).
  assert (Iw : In c w).
  { rewrite E1 in Ic. apply encode_in in Ic as [Ic|(c' & e' & I1 & _ & I2)]; auto. exfalso. subst l. eapply staged_later; eauto. }
  assert (Ec : c = c0) by auto. subst c0.
  assert (Ef : full = w).
  { rewrite E1. apply encode_id. intros x Ix Sx. assert (x = c).
    { apply On; auto. subst l. unfold special in *. rewrite map_app. apply in_or_app. now left. }
    subst x. subst l. rewrite map_app in D. apply NoDup_remove_2 in D. apply D. apply in_or_app. now left. }
  exists (pre ++ dots (Nat.min 3 n)).
  assert (Nds : forall x, In x (dots (Nat.min 3 n)) -> ~ special l x) by (intros x I; apply dots_in in I; now subst).
  apply encoded_encode; auto. rewrite encode_app, (encode_id l (dots _)) by auto. f_equal. rewrite E3.
  assert (Hp : forall x, In x pre -> special l x -> x = c).
  { intros x I S. apply On; auto. rewrite <- Ef, Ep. apply in_or_app. now left. }
  clear - Hp El D. induction pre as [|x pre IH]; auto. rewrite !encode_cons, IH by (intros; apply Hp; auto; now right). f_equal.
  rewrite enc_one. destruct (aeqb c x) eqn:Q.
  - apply aeqb_eq in Q. subst x. symmetry. apply enc_special_char; auto. subst l. apply in_or_app. right. now left.
  - apply aeqb_neq in Q. symmetry. apply enc_plain_char. intros S. apply Q. symmetry. apply Hp; auto. now left.
Qed.

Theorem xml_one_kind : forall (mm : nat) (s : text) (c0 : ascii), (forall c, In c s -> special xml_entities c -> c = c0) ->
  exists out s', xml_make_escaped mm s = Ok out /\ length out <= mm /\ encoded xml_entities s' out.
Proof.
  intros mm s c0 On. destruct (xml_made mm s) as (out & t & R & L & E & K1 & K2).
  destruct (Nat.le_gt_cases (length t) mm) as [H|H].
  - exists out, (fit mm s). rewrite (K1 H) in *. auto.
  - destruct (one_kind xml_entities mm (fit mm s) out c0 xml_staged xml_distinct) as (s' & E'); auto.
    + intros S. repeat (destruct S as [S|S]; [discriminate|]). destruct S.
    + intros c I S. apply fit_in in I as [I| ->]; auto. exfalso. repeat (destruct S as [S|S]; [discriminate|]). destruct S.
    + now exists out, s'.
Qed.
