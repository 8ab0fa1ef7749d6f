From Verif.Spec Require Import TextSpec FilterSpec RunSpec PrintSpec.
From Verif.Model Require Import Base Vector StringUtil Print.
From Verif.Proofs Require Import Lists VectorProofs AppendProofs.

(** ** Coloured texts (C38) *)
Lemma append_colored_spec ss value start stop : wf ss ->
  exists ss' ok, append_colored ss value start stop = Ok (ss', ok) /\ wf ss' /\ vcap ss' = vcap ss /\
    let room := vcap ss - length (vcontent ss) in
    let wanted := length start + length value + length stop in
    ((room <= length start + length stop -> ss' = ss /\ ok = false) /\
     (length start + length stop < room -> wanted <= room ->
       vcontent ss' = vcontent ss ++ start ++ value ++ stop /\ ok = true) /\
     (length start + length stop < room -> room < length start + length value ->
       vcontent ss' = vcontent ss ++ start ++ firstn (room - length start - length stop) value ++ stop /\
       length (vcontent ss') = vcap ss /\ ok = false) /\
     (length start + length stop < room -> length start + length value <= room -> room < wanted ->
       vcontent ss' = vcontent ss ++ start ++ value ++ firstn (room - length start - length value) stop /\
       length (vcontent ss') = vcap ss /\ ok = false)).
Proof.
  intros W. pose proof (vcontent_length ss W) as L. unfold append_colored, vavailable.
  rewrite csub_ok by exact W. cbn [bind]. rewrite L.
  destruct (Nat.leb_spec (vcap ss - vsize ss) (length start + length stop)).
  - exists ss, false. cbn zeta. repeat split; auto; lia.
  - destruct (append_all_content [start; value] ss W) as (ss1 & E1 & W1 & C1 & K1). rewrite E1. cbn [bind].
    cbn [List.concat] in *. rewrite app_nil_r in *. rewrite !app_length, L in *.
    destruct (Nat.leb_spec (vsize ss + (length start + length value)) (vcap ss)).
    + rewrite firstn_all2 in K1 by (rewrite !app_length; lia). cbn [bind].
      destruct (append_content ss1 stop W1) as (ss2 & E2 & W2 & C2 & K2). rewrite E2. cbn [bind].
      exists ss2. eexists. split; [reflexivity|]. split; [exact W2|]. split; [congruence|]. cbn zeta.
      rewrite K1, C1 in K2. rewrite K1, C1, !app_length, L.
      split; [lia|]. split; [|split; [lia|]].
      * intros _ H2. destruct (Nat.leb_spec (vsize ss + (length start + length value) + length stop) (vcap ss)); [|lia].
        split; [|reflexivity]. rewrite K2, firstn_all2 by (rewrite !app_length; lia). now rewrite <- !app_assoc.
      * intros _ _ H3. destruct (Nat.leb_spec (vsize ss + (length start + length value) + length stop) (vcap ss)); [lia|].
        assert (Q : vcontent ss2 = vcontent ss ++ start ++ value ++ firstn (vcap ss - vsize ss - length start - length value) stop).
        { rewrite K2. rewrite firstn_app_ge by (rewrite !app_length; lia). rewrite <- !app_assoc. do 4 f_equal. rewrite !app_length. lia. }
        split; [exact Q|]. split; [|reflexivity]. rewrite Q, !app_length, firstn_length. lia.
    + rewrite C1, csub_ok by lia. cbn [bind]. unfold vresize. rewrite C1.
      destruct (Nat.ltb_spec (vcap ss) (vcap ss - length stop)); [lia|]. cbn [bind].
      set (ss2 := mkvec (vbuf ss1) (vcap ss - length stop)).
      assert (W2 : wf ss2) by (unfold wf, ss2, vcap in *; cbn [vbuf vsize] in *; lia).
      assert (S1 : vsize ss1 = vcap ss).
      { rewrite <- (vcontent_length ss1 W1), K1, firstn_length, !app_length. lia. }
      assert (K3 : vcontent ss2 = firstn (vcap ss - length stop) (vcontent ss ++ start ++ value)).
      { unfold ss2, vcontent at 1. cbn [vbuf vsize]. replace (vcap ss - length stop) with (Nat.min (vcap ss - length stop) (vcap ss)) by lia.
        rewrite <- !firstn_firstn. rewrite <- K1. unfold vcontent. rewrite S1, firstn_firstn. f_equal; lia. }
      destruct (append_content ss2 stop W2) as (ss3 & E3 & W3 & C3 & K4). rewrite E3. cbn [bind].
      exists ss3. eexists. split; [reflexivity|]. split; [exact W3|].
      assert (C2 : vcap ss2 = vcap ss) by exact C1. split; [congruence|]. cbn zeta.
      split; [lia|]. split; [lia|]. split; [|lia].
      intros _ H3. rewrite C2, K3 in K4.
      assert (Q : firstn (vcap ss - length stop) (vcontent ss ++ start ++ value) = vcontent ss ++ start ++ firstn (vcap ss - vsize ss - length start - length stop) value).
      { rewrite firstn_app_ge by lia. rewrite firstn_app_ge by lia. do 3 f_equal. lia. }
      rewrite Q in K4. rewrite firstn_all2 in K4 by (rewrite !app_length, firstn_length; lia).
      rewrite <- !app_assoc in K4. split; [exact K4|]. split; [|apply andb_false_r].
      rewrite K4, !app_length, firstn_length. lia.
Qed.

(** What [registry::print] needs of [append]. *)
Lemma append_piece_spec ss p : wf ss ->
  exists ss' ok, append_piece ss p = Ok (ss', ok) /\ wf ss' /\ vcap ss' = vcap ss /\
    (exists more, vcontent ss' = vcontent ss ++ more) /\
    (ok = true -> vcontent ss' = vcontent ss ++ rendered p) /\
    (vcontent ss = [] -> printable (vcap ss) p -> (forall s, p <> Text s) -> ok = true) /\
    (ok = false -> forall s, p = Text s -> vcap ss < length (vcontent ss ++ s)).
Proof.
  intros W. pose proof (vcontent_length ss W) as L.
  assert (T : forall s, exists ss' ok, append ss s = Ok (ss', ok) /\ wf ss' /\ vcap ss' = vcap ss /\
    (exists more, vcontent ss' = vcontent ss ++ more) /\ (ok = true -> vcontent ss' = vcontent ss ++ s) /\
    (ok = false -> vcap ss < length (vcontent ss ++ s))).
  { intros s. destruct (append_content ss s W) as (ss' & E & W' & C & K). exists ss'. eexists. split; [exact E|]. split; [exact W'|].
    split; [exact C|]. unfold wf in W. split.
    - exists (firstn (vcap ss - length (vcontent ss)) s). rewrite K, firstn_app_ge by lia. reflexivity.
    - split.
      + intros H. apply Nat.leb_le in H. rewrite K. apply firstn_all2. exact H.
      + intros H. apply Nat.leb_gt in H. exact H. }
  destruct p as [s|s|value start stop]; cbn [append_piece rendered printable].
  - destruct (T s) as (ss' & ok & E & W' & C & M & K & N). exists ss', ok. repeat split; auto.
    + intros _ _ H. now contradiction (H s).
    + intros H s' [= <-]. auto.
  - destruct (T s) as (ss' & ok & E & W' & C & M & K & N). exists ss', ok. repeat split; auto; [|discriminate].
    intros H P _. destruct ok; auto. specialize (N eq_refl). rewrite H in N. cbn in N. lia.
  - destruct (append_colored_spec ss value start stop W) as (ss' & ok & E & W' & C & A & B & D & F).
    exists ss', ok. split; [exact E|]. split; [exact W'|]. split; [exact C|].
    destruct (le_lt_dec (vcap ss - length (vcontent ss)) (length start + length stop)) as [H|H].
    { destruct (A H) as [-> ->]. repeat split; try discriminate.
      - exists []. now rewrite app_nil_r.
      - intros H0 [_ H1] _. rewrite H0 in H. cbn in H. rewrite app_length in H1. lia. }
    destruct (le_lt_dec (length start + length value + length stop) (vcap ss - length (vcontent ss))) as [H1|H1].
    { destruct (B H H1) as [K ->]. repeat split; auto; [eauto|discriminate]. }
    assert (N : vcontent ss = [] -> length (start ++ value ++ stop) <= vcap ss /\ length (start ++ stop) < vcap ss -> False).
    { intros H0 [H2 _]. rewrite H0 in H1. cbn in H1. rewrite !app_length in H2. lia. }
    destruct (le_lt_dec (length start + length value) (vcap ss - length (vcontent ss))) as [H2|H2].
    + destruct (F H H2 H1) as (K & _ & ->). repeat split; try discriminate; [eauto|]. intros H0 P _. destruct (N H0 P).
    + destruct (D H H2) as (K & _ & ->). repeat split; try discriminate; [eauto|]. intros H0 P _. destruct (N H0 P).
Qed.

(** ** [registry::print] (C37) *)
Lemma vresize_back {A} (v : vec A) a b : wf v -> vcontent v = a ++ b -> vresize v (length a) = Ok (mkvec (vbuf v) (length a)) /\
  wf (mkvec (vbuf v) (length a)) /\ vcontent (mkvec (vbuf v) (length a)) = a.
Proof.
  intros W E. pose proof (vcontent_length v W) as L. rewrite E, app_length in L. unfold vresize, wf in *.
  destruct (Nat.ltb_spec (vcap v) (length a)); [lia|]. split; [reflexivity|]. split; [unfold vcap in *; cbn [vbuf vsize]; lia|].
  unfold vcontent in *. cbn [vbuf vsize].
  replace (length a) with (Nat.min (length a) (vsize v)) by lia. rewrite <- firstn_firstn, E. rewrite firstn_app_le, firstn_all; auto.
Qed.

Definition chunk_ok (mm : nat) (args : list piece) (c : text) : Prop := length c <= mm \/ In (Text c) args.

Lemma append_or_print_spec ss p : wf ss -> printable (vcap ss) p ->
  exists ss' out, append_or_print ss p = Ok (ss', out) /\ wf ss' /\ vcap ss' = vcap ss /\
    List.concat out ++ vcontent ss' = vcontent ss ++ rendered p /\ Forall (fun c => length c <= vcap ss \/ p = Text c) out.
Proof.
  intros W P. pose proof (vcontent_length ss W) as L. unfold append_or_print.
  destruct (append_piece_spec ss p W) as (ss1 & ok & E1 & W1 & C1 & [more M] & K1 & _). rewrite E1. cbn [bind].
  destruct ok.
  - exists ss1, []. repeat split; auto.
  - destruct (vresize_back ss1 _ _ W1 M) as (E2 & W2 & K2). rewrite <- L, E2. cbn [bind].
    set (ss2 := mkvec (vbuf ss1) (length (vcontent ss))) in *.
    assert (C2 : vcap ss2 = vcap ss) by exact C1.
    assert (W3 : wf (vclear ss2)) by (unfold wf, vclear; cbn [vsize]; lia).
    assert (C3 : vcap (vclear ss2) = vcap ss) by exact C1.
    assert (F1 : length (vcontent ss) <= vcap ss) by (unfold wf in W; lia).
    destruct (append_piece_spec (vclear ss2) p W3) as (ss3 & ok2 & E3 & W4 & C4 & _ & K3 & N & _). rewrite E3. cbn [bind].
    change (vcontent (vclear ss2)) with (@nil ascii) in *. cbn [app] in *. rewrite C3 in *.
    destruct ok2.
    + exists ss3, [vcontent ss2]. rewrite K2, K3 by auto. cbn [List.concat]. rewrite app_nil_r. repeat split; auto.
    + destruct p as [s|s|value start stop].
      * exists (vclear ss3), [vcontent ss2; s]. rewrite K2. cbn [List.concat]. rewrite !app_nil_r. repeat split; auto.
        unfold wf, vclear. cbn [vsize]. lia.
      * discriminate N; auto. intros x [=].
      * discriminate N; auto. intros x [=].
Qed.

Lemma print_loop_spec l : forall ss, wf ss -> Forall (printable (vcap ss)) l ->
  exists ss' out, print_loop ss l = Ok (ss', out) /\ wf ss' /\ vcap ss' = vcap ss /\
    List.concat out ++ vcontent ss' = vcontent ss ++ List.concat (map rendered l) /\ Forall (chunk_ok (vcap ss) l) out.
Proof.
  induction l as [|p l IH]; intros ss W P; cbn [print_loop map List.concat].
  - exists ss, []. cbn [List.concat app]. rewrite app_nil_r. auto.
  - inversion P as [|? ? P1 P2]; subst. destruct (append_or_print_spec ss p W P1) as (ss1 & out1 & E1 & W1 & C1 & K1 & F1). rewrite E1. cbn [bind].
    rewrite <- C1 in P2. destruct (IH ss1 W1 P2) as (ss2 & out2 & E2 & W2 & C2 & K2 & F2). rewrite E2. cbn [bind].
    exists ss2, (out1 ++ out2). repeat split; auto; [congruence| |].
    + rewrite concat_app, <- app_assoc, K2, app_assoc, K1, <- app_assoc. reflexivity.
    + apply Forall_app. split.
      * eapply Forall_impl; [|exact F1]. intros c [H| ->]; [left; exact H|right; left; reflexivity].
      * rewrite C1 in F2. eapply Forall_impl; [|exact F2]. intros c [H|H]; [left; exact H|right; right; exact H].
Qed.

Lemma registry_print_spec mm l : Forall (printable mm) l ->
  exists out, registry_print mm l = Ok out /\ List.concat out = List.concat (map rendered l) /\ Forall (chunk_ok mm l) out.
Proof.
  intros P.
  assert (G : exists out, (do (message, out) <- print_loop (new_string mm) l ;; Ok (out ++ (if vsize message =? 0 then [] else [vcontent message]))) = Ok out /\
    List.concat out = List.concat (map rendered l) /\ Forall (chunk_ok mm l) out).
  { rewrite <- (vcap_new mm) in P. destruct (print_loop_spec l (new_string mm) (wf_new mm) P) as (ss & out & E & W & C & K & F).
    rewrite E. cbn [bind]. eexists. split; [reflexivity|]. rewrite vcap_new in *. rewrite vcontent_new in K. cbn [app] in K.
    pose proof (vcontent_length ss W) as L.
    destruct (Nat.eqb_spec (vsize ss) 0) as [Z|Z].
    - rewrite app_nil_r. split; [|exact F]. rewrite <- K. destruct (vcontent ss); [now rewrite app_nil_r|cbn in L; lia].
    - rewrite concat_app. cbn [List.concat]. rewrite app_nil_r. split; [exact K|]. apply Forall_app. split; [exact F|].
      constructor; [|constructor]. left. unfold wf in W. lia. }
  unfold registry_print. destruct l as [|[s|s|v a b] [|p l]]; try exact G.
  exists [s]. cbn [List.concat map rendered]. rewrite !app_nil_r. repeat split; auto. constructor; [|constructor]. right. now left.
Qed.

(** Nothing can fail in [registry::print], whatever its arguments. *)
Lemma append_or_print_total ss p : wf ss -> exists ss' out, append_or_print ss p = Ok (ss', out) /\ wf ss' /\ vcap ss' = vcap ss.
Proof.
  intros W. pose proof (vcontent_length ss W) as L. unfold append_or_print.
  destruct (append_piece_spec ss p W) as (ss1 & ok & E1 & W1 & C1 & [more M] & _). rewrite E1. cbn [bind].
  destruct ok; [eauto|]. destruct (vresize_back ss1 _ _ W1 M) as (E2 & W2 & K2). rewrite <- L, E2. cbn [bind].
  set (ss2 := mkvec (vbuf ss1) (length (vcontent ss))) in *.
  assert (W3 : wf (vclear ss2)) by (unfold wf, vclear; cbn [vsize]; lia).
  destruct (append_piece_spec (vclear ss2) p W3) as (ss3 & ok2 & E3 & W4 & C4 & _). rewrite E3. cbn [bind].
  change (vcap (vclear ss2)) with (vcap ss1) in C4.
  assert (W5 : wf (vclear ss3)) by (unfold wf, vclear; cbn [vsize]; lia).
  destruct ok2; [exists ss3; eexists; repeat split; auto; congruence|].
  destruct (append_content (vclear ss3) (lit "...") W5) as (ss4 & E4 & W6 & C6 & _). change (vcap (vclear ss3)) with (vcap ss3) in C6.
  destruct p; rewrite ?E4; cbn [bind]; eexists; eexists; (split; [reflexivity|]); split; auto; try congruence.
  change (vcap (vclear ss3)) with (vcap ss3). congruence.
Qed.

Lemma registry_print_total mm l : exists out, registry_print mm l = Ok out.
Proof.
  assert (G : forall l ss, wf ss -> exists ss' out, print_loop ss l = Ok (ss', out) /\ wf ss').
  { clear l. induction l as [|p l IH]; intros ss W; cbn [print_loop]; [eauto|].
    destruct (append_or_print_total ss p W) as (ss1 & out1 & E1 & W1 & _). rewrite E1. cbn [bind].
    destruct (IH ss1 W1) as (ss2 & out2 & E2 & W2). rewrite E2. cbn [bind]. eauto. }
  destruct (G l (new_string mm) (wf_new mm)) as (ss & out & E & _). unfold registry_print.
  destruct l as [|[s|s|v a b] [|p l]]; rewrite ?E; cbn [bind]; eauto.
Qed.

(** ** [cli::print] (C51) *)
Lemma append_pieces_texts l ss : append_pieces ss (map Text l) = append_all ss l.
Proof. revert ss. induction l as [|s l IH]; intros ss; cbn [map append_pieces append_all append_piece]; auto. destruct (append ss s) as [[ss1 []]|]; cbn [bind]; auto. Qed.

Lemma cli_print_texts mm l : cli_print mm (map Text l) = Ok (fit mm (List.concat l)).
Proof.
  unfold cli_print. rewrite append_pieces_texts.
  destruct (append_or_truncate_spec (new_string mm) l (wf_new mm)) as (ss' & E & _ & _ & K). unfold append_or_truncate in E.
  rewrite vcontent_new, vcap_new in *. cbn [app] in *. unfold fit.
  destruct (append_all (new_string mm) l) as [[ss1 ok]|]; cbn [bind] in *; [|discriminate].
  destruct ok.
  - injection E as -> E. rewrite <- E in K. rewrite K, <- E. reflexivity.
  - destruct (truncate_end ss1) as [ss2|]; cbn [bind] in *; [|discriminate]. injection E as -> E. rewrite <- E in K. now rewrite K, <- E.
Qed.

Lemma prints_texts mm ls : prints mm (map (map Text) ls) = Ok (map (fun l => fit mm (List.concat l)) ls).
Proof. induction ls as [|l ls IH]; cbn [map prints]; auto. rewrite cli_print_texts. cbn [bind]. rewrite IH. reflexivity. Qed.

Lemma append_pieces_total l : forall ss, wf ss -> exists ss' ok, append_pieces ss l = Ok (ss', ok) /\ wf ss' /\ vcap ss' = vcap ss.
Proof.
  induction l as [|p l IH]; intros ss W; cbn [append_pieces]; [eauto|].
  destruct (append_piece_spec ss p W) as (ss1 & ok & E & W1 & C1 & _). rewrite E. cbn [bind].
  destruct ok; [|eauto]. destruct (IH ss1 W1) as (ss2 & ok2 & E2 & W2 & C2). rewrite E2. eexists; eexists; repeat split; eauto. congruence.
Qed.

Lemma cli_print_total mm l : exists s, cli_print mm l = Ok s /\ length s <= mm.
Proof.
  unfold cli_print. destruct (append_pieces_total l (new_string mm) (wf_new mm)) as (ss & ok & E & W & C). rewrite E. cbn [bind].
  rewrite vcap_new in C. destruct ok.
  - eexists. split; [reflexivity|]. rewrite vcontent_length by auto. unfold wf in W. lia.
  - destruct (truncate_end_spec ss W) as (ss' & E' & W' & C' & S' & _). rewrite E'. cbn [bind]. eexists. split; [reflexivity|].
    rewrite vcontent_length by auto. unfold wf in W'. lia.
Qed.

(** The whole is printed if every argument fits with its colours. *)
Lemma append_pieces_fit l : forall ss, wf ss ->
  (forall a p b, l = a ++ p :: b -> length (vcontent ss) + length (List.concat (map rendered a)) + length (rendered p) <= vcap ss /\
     match p with Colored value start stop => length (vcontent ss) + length (List.concat (map rendered a)) + length (start ++ stop) < vcap ss | _ => True end) ->
  exists ss', append_pieces ss l = Ok (ss', true) /\ wf ss' /\ vcap ss' = vcap ss /\ vcontent ss' = vcontent ss ++ List.concat (map rendered l).
Proof.
  induction l as [|p l IH]; intros ss W H; cbn [append_pieces map List.concat].
  - exists ss. rewrite app_nil_r. auto.
  - pose proof (H [] p l eq_refl) as [H1 H2]. cbn [map List.concat length] in H1, H2.
    assert (A : exists ss1, append_piece ss p = Ok (ss1, true) /\ wf ss1 /\ vcap ss1 = vcap ss /\ vcontent ss1 = vcontent ss ++ rendered p).
    { destruct p as [s|s|value start stop]; cbn [append_piece rendered] in *.
      - destruct (append_content ss s W) as (ss1 & E & W1 & C1 & K1). exists ss1. rewrite E, K1.
        rewrite firstn_all2 by (rewrite app_length; lia). repeat split; auto. do 2 f_equal. apply Nat.leb_le. rewrite app_length. lia.
      - destruct (append_content ss s W) as (ss1 & E & W1 & C1 & K1). exists ss1. rewrite E, K1.
        rewrite firstn_all2 by (rewrite app_length; lia). repeat split; auto. do 2 f_equal. apply Nat.leb_le. rewrite app_length. lia.
      - destruct (append_colored_spec ss value start stop W) as (ss1 & ok & E & W1 & C1 & _ & B & _). rewrite !app_length in *.
        destruct B as [K ->]; [lia|lia|]. exists ss1. auto. }
    destruct A as (ss1 & E & W1 & C1 & K1). rewrite E. cbn [bind].
    destruct (IH ss1 W1) as (ss2 & E2 & W2 & C2 & K2).
    + intros a q b EQ. destruct (H (p :: a) q b) as [X1 X2]; [rewrite EQ; reflexivity|]. cbn [map List.concat] in X1, X2.
      rewrite K1, C1, !app_length in *. split; [lia|]. destruct q; auto. rewrite !app_length in *. lia.
    + exists ss2. rewrite E2, K2, K1, <- app_assoc. repeat split; auto. congruence.
Qed.

Lemma registry_print_texts mm texts : exists chunks, registry_print mm (map Text texts) = Ok chunks /\
  List.concat chunks = List.concat texts /\ Forall (fun c => length c <= mm \/ In c texts) chunks.
Proof.
  destruct (registry_print_spec mm (map Text texts)) as (out & E & K & F).
  - apply Forall_forall. intros p H. apply in_map_iff in H as (s & <- & _). exact I.
  - exists out. split; [exact E|]. split; [rewrite K, map_map; cbn; now rewrite map_id|].
    eapply Forall_impl; [|exact F]. intros c [H|H]; [now left|right]. apply in_map_iff in H as (s & [= <-] & H). exact H.
Qed.

Lemma append_colored_unterminated :
  exists ss', append_colored (new_string 13) (lit "abcdef") color_error color_reset = Ok (ss', false) /\
    vcontent ss' = color_error ++ lit "abcdef".
Proof. exists (mkvec (color_error ++ lit "abcdef") 13). split; reflexivity. Qed.

Lemma cli_print_unterminated n : 12 <= n -> exists value,
  cli_print n [make_colored value true color_error] = Ok (color_error ++ value ++ lit "...").
Proof.
  intros H. set (v := repeat "c"%char (n - 10)). exists v.
  assert (LV : length v = n - 10) by apply repeat_length.
  unfold cli_print, make_colored. cbn [append_pieces append_piece].
  destruct (append_colored_spec (new_string n) v color_error color_reset (wf_new n)) as (ss & ok & E & W & C & _ & _ & _ & D).
  rewrite vcap_new, vcontent_new in *. cbn [length] in D.
  change (length color_error) with 7 in D. change (length color_reset) with 4 in D.
  destruct D as (K & L & ->); [lia|lia|lia|]. rewrite E. cbn [bind].
  destruct (truncate_end_spec ss W) as (ss' & E' & W' & C' & S' & K'). rewrite E'. cbn [bind]. f_equal.
  rewrite vcontent_length in L by exact W. rewrite K' by lia. rewrite C, K. unfold truncated. cbn [app].
  replace (Nat.min 3 n) with 3 by lia. change (dots 3) with (lit "...").
  rewrite app_assoc, firstn_app_le by (rewrite app_length, LV; change (length color_error) with 7; lia).
  rewrite firstn_all2 by (rewrite app_length, LV; change (length color_error) with 7; lia). now rewrite app_assoc.
Qed.

Lemma cli_print_length mm texts out : cli_print mm (map Text texts) = Ok out ->
  (length (List.concat texts) <= mm -> out = List.concat texts) /\
  (mm < length (List.concat texts) -> length out = mm /\
     (3 <= mm -> out = firstn (mm - 3) (List.concat texts) ++ quote "...")).
Proof.
  rewrite cli_print_texts. intros [= <-]. unfold fit. destruct (Nat.leb_spec (length (List.concat texts)) mm); split; intros; try lia; auto.
  unfold truncated. split.
  - rewrite app_length, firstn_length. unfold dots. rewrite repeat_length. lia.
  - intros H3. replace (Nat.min 3 mm) with 3 by lia. reflexivity.
Qed.

Lemma cli_print_pieces mm arguments : length (List.concat (map rendered arguments)) < mm ->
  cli_print mm arguments = Ok (List.concat (map rendered arguments)).
Proof.
  intros H. unfold cli_print. destruct (append_pieces_fit arguments (new_string mm) (wf_new mm)) as (ss & E & _ & _ & K).
  - rewrite vcap_new, vcontent_new. intros a p b ->. rewrite map_app, concat_app, app_length in H. cbn [map List.concat] in H.
    rewrite app_length in H. cbn [length]. split; [lia|]. destruct p; auto. cbn [rendered] in H. rewrite !app_length in *. lia.
  - rewrite E. cbn [bind]. rewrite K, vcontent_new. reflexivity.
Qed.
