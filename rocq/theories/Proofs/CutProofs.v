(** Texts that are too long are cut where they are (C106). *)
From Verif.Spec Require Import TextSpec FilterSpec PrintSpec EscapeSpec Events NumberSpec XmlSpec ConsoleSpec CutSpec.
From Verif.Model Require Import Base Vector StringUtil Integer Print Filter Run Session Reporters.
From Verif.Proofs Require Import Lists VectorProofs AppendProofs IntegerProofs PrintProofs EscapeProofs XmlProofs ReportProofs ReportExamples ServiceProofs ConsoleProofs.
From Coq Require Import Lia ZifyBool ZifyNat ZifyN.
Local Open Scope list_scope.

(** ** [registry::print] *)
Lemma append_exact ss p : wf ss ->
  exists ss' ok, append_piece ss p = Ok (ss', ok) /\ wf ss' /\ vcap ss' = vcap ss /\
    (exists more, vcontent ss' = vcontent ss ++ more) /\
    (ok = true -> vcontent ss' = vcontent ss ++ squeezed (vcap ss) p) /\
    (ok = false -> vcontent ss = [] -> match p with Text _ => True | _ => vcontent ss' ++ mark (vcap ss) = squeezed (vcap ss) p end).
Proof.
  intros W. pose proof (vcontent_length ss W) as L.
  assert (B : length (vcontent ss) <= vcap ss) by (unfold wf in W; lia).
  destruct p as [s|s|value start stop]; cbn [append_piece squeezed]; cbv zeta.
  - destruct (append_content ss s W) as (ss' & E & W' & C & K). exists ss'. eexists. split; [exact E|]. split; [exact W'|]. split; [exact C|].
    split; [eexists; rewrite K, firstn_app_ge by lia; reflexivity|]. split; [|auto].
    intros H. apply Nat.leb_le in H. rewrite K. apply firstn_all2. exact H.
  - destruct (append_content ss s W) as (ss' & E & W' & C & K). exists ss'. eexists. split; [exact E|]. split; [exact W'|]. split; [exact C|].
    split; [eexists; rewrite K, firstn_app_ge by lia; reflexivity|]. unfold text, str in *. split.
    + intros H. apply Nat.leb_le in H. rewrite app_length in H. destruct (Nat.leb_spec (length s) (vcap ss)); [|lia]. rewrite K. apply firstn_all2. rewrite app_length. lia.
    + intros H Z. rewrite Z in *. cbn [app length] in *. rewrite H, K. reflexivity.
  - destruct (append_colored_spec ss value start stop W) as (ss' & ok & E & W' & C & A & B' & D & F).
    exists ss', ok. split; [exact E|]. split; [exact W'|]. split; [exact C|].
    destruct (le_lt_dec (vcap ss - length (vcontent ss)) (length start + length stop)) as [H|H].
    { destruct (A H) as [-> ->]. split; [exists []; now rewrite app_nil_r|]. split; [discriminate|].
      intros _ Z. rewrite Z in *. cbn [length app] in *. unfold text, str in *. destruct (Nat.leb_spec (vcap ss) (length start + length stop)); [reflexivity|lia]. }
    destruct (le_lt_dec (length start + length value + length stop) (vcap ss - length (vcontent ss))) as [H1|H1].
    { destruct (B' H H1) as [K ->]. split; [eauto|]. split; [|discriminate]. intros _. rewrite K. unfold text, str in *.
      destruct (Nat.leb_spec (vcap ss) (length start + length stop)); [lia|]. destruct (Nat.leb_spec (length start + length value + length stop) (vcap ss)); [reflexivity|lia]. }
    destruct (le_lt_dec (length start + length value) (vcap ss - length (vcontent ss))) as [H2|H2].
    + destruct (F H H2 H1) as (K & _ & ->). split; [eauto|]. split; [discriminate|]. intros _ Z. rewrite K. rewrite Z in *. cbn [length app] in *. unfold text, str in *.
      rewrite Nat.sub_0_r in *.
      destruct (Nat.leb_spec (vcap ss) (length start + length stop)); [lia|]. destruct (Nat.leb_spec (length start + length value + length stop) (vcap ss)); [lia|].
      destruct (Nat.leb_spec (length start + length value) (vcap ss)); [|lia]. now rewrite <- !app_assoc.
    + destruct (D H H2) as (K & _ & ->). split; [eauto|]. split; [discriminate|]. intros _ Z. rewrite K. rewrite Z in *. cbn [length app] in *. unfold text, str in *.
      rewrite Nat.sub_0_r in *.
      destruct (Nat.leb_spec (vcap ss) (length start + length stop)); [lia|]. destruct (Nat.leb_spec (length start + length value + length stop) (vcap ss)); [lia|].
      destruct (Nat.leb_spec (length start + length value) (vcap ss)); [lia|]. now rewrite <- !app_assoc.
Qed.

Lemma append_or_print_exact ss p : wf ss ->
  exists ss' out, append_or_print ss p = Ok (ss', out) /\ wf ss' /\ vcap ss' = vcap ss /\
    List.concat out ++ vcontent ss' = vcontent ss ++ squeezed (vcap ss) p /\ Forall (fun c => length c <= vcap ss \/ p = Text c) out.
Proof.
  intros W. pose proof (vcontent_length ss W) as L. unfold append_or_print.
  destruct (append_exact ss p W) as (ss1 & ok & E1 & W1 & C1 & [more M] & K1 & _). rewrite E1. cbn [bind].
  destruct ok; [exists ss1, []; repeat split; auto|].
  destruct (vresize_back ss1 _ _ W1 M) as (E2 & W2 & K2). rewrite <- L, E2. cbn [bind].
  set (ss2 := mkvec (vbuf ss1) (length (vcontent ss))) in *.
  assert (C2 : vcap ss2 = vcap ss) by exact C1.
  assert (W3 : wf (vclear ss2)) by (unfold wf, vclear; cbn [vsize]; lia).
  assert (C3 : vcap (vclear ss2) = vcap ss) by exact C1.
  assert (F1 : length (vcontent ss) <= vcap ss) by (unfold wf in W; lia).
  destruct (append_exact (vclear ss2) p W3) as (ss3 & ok2 & E3 & W4 & C4 & _ & K3 & N). rewrite E3. cbn [bind].
  change (vcontent (vclear ss2)) with (@nil ascii) in *. cbn [app] in *. rewrite C3 in *.
  destruct ok2.
  { exists ss3, [vcontent ss2]. rewrite K2, K3 by auto. cbn [List.concat]. rewrite app_nil_r. repeat split; auto. }
  specialize (N eq_refl eq_refl).
  assert (W5 : wf (vclear ss3)) by (unfold wf, vclear; cbn [vsize]; lia).
  assert (F3 : length (vcontent ss3) <= vcap ss) by (pose proof (vcontent_length ss3 W4); unfold wf in W4; lia).
  destruct p as [s|s|value start stop].
  - exists (vclear ss3), [vcontent ss2; s]. rewrite K2. cbn [List.concat]. rewrite !app_nil_r. repeat split; auto.
  - destruct (append_content (vclear ss3) (lit "...") W5) as (ss4 & E4 & W6 & C6 & K6). rewrite E4. cbn [bind].
    change (vcap (vclear ss3)) with (vcap ss3) in *. change (vcontent (vclear ss3)) with (@nil ascii) in *. cbn [app] in K6.
    exists ss4, [vcontent ss2; vcontent ss3]. rewrite K2, K6, C4, <- N. cbn [List.concat]. rewrite app_nil_r, <- app_assoc. repeat split; auto. congruence.
  - destruct (append_content (vclear ss3) (lit "...") W5) as (ss4 & E4 & W6 & C6 & K6). rewrite E4. cbn [bind].
    change (vcap (vclear ss3)) with (vcap ss3) in *. change (vcontent (vclear ss3)) with (@nil ascii) in *. cbn [app] in K6.
    exists ss4, [vcontent ss2; vcontent ss3]. rewrite K2, K6, C4, <- N. cbn [List.concat]. rewrite app_nil_r, <- app_assoc. repeat split; auto. congruence.
Qed.

Lemma print_loop_exact l : forall ss, wf ss ->
  exists ss' out, print_loop ss l = Ok (ss', out) /\ wf ss' /\ vcap ss' = vcap ss /\
    List.concat out ++ vcontent ss' = vcontent ss ++ flat_map (squeezed (vcap ss)) l /\ Forall (chunk_ok (vcap ss) l) out.
Proof.
  induction l as [|p l IH]; intros ss W; cbn [print_loop flat_map].
  - exists ss, []. cbn [List.concat app]. rewrite app_nil_r. auto.
  - destruct (append_or_print_exact ss p W) as (ss1 & out1 & E1 & W1 & C1 & K1 & F1). rewrite E1. cbn [bind].
    destruct (IH ss1 W1) as (ss2 & out2 & E2 & W2 & C2 & K2 & F2). rewrite E2. cbn [bind]. rewrite C1 in K2.
    exists ss2, (out1 ++ out2). repeat split; auto; [congruence| |].
    + rewrite concat_app, <- app_assoc, K2, app_assoc, K1, <- app_assoc. reflexivity.
    + apply Forall_app. split.
      * eapply Forall_impl; [|exact F1]. intros c [H| ->]; [left; exact H|right; left; reflexivity].
      * rewrite C1 in F2. eapply Forall_impl; [|exact F2]. intros c [H|H]; [left; exact H|right; right; exact H].
Qed.

Theorem print_exact mm l : exists out, registry_print mm l = Ok out /\ List.concat out = flat_map (squeezed mm) l /\
  Forall (fun c => length c <= mm \/ In (Text c) l) out.
Proof.
  assert (G : exists out, (do (message, out) <- print_loop (new_string mm) l ;; Ok (out ++ (if vsize message =? 0 then [] else [vcontent message]))) = Ok out /\
    List.concat out = flat_map (squeezed mm) l /\ Forall (chunk_ok mm l) out).
  { destruct (print_loop_exact l (new_string mm) (wf_new mm)) as (ss & out & E & W & C & K & F).
    rewrite E. cbn [bind]. eexists. split; [reflexivity|]. rewrite vcap_new in *. rewrite vcontent_new in K. cbn [app] in K.
    pose proof (vcontent_length ss W) as L.
    destruct (Nat.eqb_spec (vsize ss) 0) as [Z|Z].
    - rewrite app_nil_r. split; [|exact F]. rewrite <- K. destruct (vcontent ss); [now rewrite app_nil_r|cbn in L; lia].
    - rewrite concat_app. cbn [List.concat]. rewrite app_nil_r. split; [exact K|]. apply Forall_app. split; [exact F|].
      constructor; [|constructor]. left. unfold wf in W. lia. }
  unfold registry_print. destruct l as [|[s|s|v a b] [|p l]]; try exact G.
  exists [s]. cbn [List.concat flat_map squeezed]. rewrite !app_nil_r. repeat split; auto. constructor; [|constructor]. right. now left.
Qed.

(** What can be printed in full is. *)
Lemma squeezed_printable n p : printable n p -> squeezed n p = rendered p.
Proof.
  destruct p as [s|s|value start stop]; cbn [printable rendered squeezed]; cbv zeta; auto.
  - intros H. apply Nat.leb_le in H. now rewrite H.
  - rewrite !app_length. intros [H K]. destruct (Nat.leb_spec n (length start + length stop)); [lia|].
    destruct (Nat.leb_spec (length start + length value + length stop) n); [reflexivity|lia].
Qed.
Lemma mark_length n : length (mark n) = Nat.min n 3.
Proof. unfold mark. rewrite firstn_length. reflexivity. Qed.

(** What cannot ends with dots, and is hardly longer than the limit. *)
Theorem cut_visibly n p : 
  (printable n p -> squeezed n p = rendered p) /\
  (~ printable n p -> (exists shown, squeezed n p = shown ++ mark n /\ length shown <= n /\
     match p with
     | Text _ => False
     | Number s => exists rest, s = shown ++ rest
     | Colored value start stop => n <= length (start ++ stop) /\ shown = [] \/
         exists kept rest end_ rest', value = kept ++ rest /\ stop = end_ ++ rest' /\ shown = start ++ kept ++ end_ /\ length shown = n /\ (rest = [] \/ rest' = [])
     end)).
Proof.
  split; [apply squeezed_printable|]. destruct p as [s|s|value start stop]; cbn [printable squeezed]; cbv zeta; intros H; [easy| |].
  - exists (firstn n s). destruct (Nat.leb_spec (length s) n) as [L|L]; [contradiction|]. split; [reflexivity|]. rewrite firstn_length. split; [lia|].
    exists (skipn n s). now rewrite firstn_skipn.
  - rewrite !app_length in *. destruct (Nat.leb_spec n (length start + length stop)) as [L|L]; [exists []; repeat split; auto; cbn; lia|].
    destruct (Nat.leb_spec (length start + length value + length stop) n) as [L1|L1]; [contradiction H; lia|].
    destruct (Nat.leb_spec (length start + length value) n) as [L2|L2].
    + exists (start ++ value ++ firstn (n - length start - length value) stop). split; [now rewrite <- !app_assoc|].
      rewrite !app_length, firstn_length. split; [lia|]. right.
      exists value, [], (firstn (n - length start - length value) stop), (skipn (n - length start - length value) stop).
      rewrite app_nil_r, firstn_skipn. repeat split; auto. lia.
    + exists (start ++ firstn (n - length start - length stop) value ++ stop). split; [now rewrite <- !app_assoc|].
      rewrite !app_length, firstn_length. split; [lia|]. right.
      exists (firstn (n - length start - length stop) value), (skipn (n - length start - length stop) value), stop, [].
      rewrite app_nil_r, firstn_skipn. repeat split; auto. lia.
Qed.

(** ** The console reporter *)
Section Console.
Variables mm mn : nat.
Variable version : str.
Variable with_color : bool.
Variable file : event -> str.
Variable duration : event -> option str.

Notation paint := (cut_paint mm with_color).
Notation number := (fun k => cut_number mm (decimal k)).
Notation name_of := (fun id => firstn mn (full id)).
Notation texts := (cut_text mm mn with_color id_name id_type full id_tags file duration decimal version).

Definition gives (calls : list (list piece)) (t : text) : Prop := flat_map (squeezed mm) (List.concat calls) = t.
Lemma gives_prints calls t : gives calls t -> tells (console_prints mm calls) t.
Proof.
  intros <-. induction calls as [|c calls IH]; cbn [console_prints]; [apply tells_nothing|].
  cbn [List.concat]. rewrite flat_map_app. apply tells_then; auto. destruct (print_exact mm c) as (out & E & K & _). exists out. auto.
Qed.
Lemma gives_app a b t u : gives a t -> gives b u -> gives (a ++ b) (t ++ u).
Proof. intros <- <-. unfold gives. now rewrite concat_app, flat_map_app. Qed.
Lemma gives_cons c b t u : flat_map (squeezed mm) c = t -> gives b u -> gives (c :: b) (t ++ u).
Proof. intros <- <-. unfold gives. cbn [List.concat]. now rewrite flat_map_app. Qed.
Lemma gives_nil : gives [] [].
Proof. reflexivity. Qed.
Lemma gives_map {A} (f : A -> list piece) (g : A -> text) l : (forall x, flat_map (squeezed mm) (f x) = g x) -> gives (map f l) (flat_map g l).
Proof. intros H. induction l as [|x l IH]; cbn [map flat_map]; [apply gives_nil|]. now apply gives_cons. Qed.
Lemma squeezed_text s : squeezed mm (Text s) = s.
Proof. reflexivity. Qed.
Lemma squeezed_colored k s : squeezed mm (make_colored s with_color (code_of k)) = paint k s.
Proof. unfold cut_paint, make_colored. destruct with_color, k; reflexivity. Qed.
Lemma squeezed_number s : squeezed mm (Number s) = cut_number mm s.
Proof. reflexivity. Qed.
Ltac squeezes :=
  cbn [flat_map List.concat app]; unfold highlight1, highlight2; 
  repeat first [rewrite (squeezed_colored Name) | rewrite (squeezed_colored Value) | rewrite (squeezed_colored Good) | rewrite (squeezed_colored Bad) | rewrite (squeezed_colored Warning)
    | rewrite (squeezed_colored Status)];
  rewrite ?squeezed_text, ?squeezed_number; unfold text, str; rewrite ?app_nil_r, <- ?app_assoc; try reflexivity.

Lemma place_gives e id sections captures l :
  gives (print_location with_color file e id sections captures l) (place_text id_name id_type file number paint e id sections captures l).
Proof.
  unfold print_location, place_text.
  eapply eq_ind with (P := gives _).
  - apply gives_cons; [reflexivity|]. apply gives_app; [apply gives_map with (g := fun s => indent ++ quote "in section " ++ double_quote ++ paint Name (sec_name s) ++ double_quote ++ feed)|].
    + intros s. squeezes.
    + apply gives_app; [apply gives_cons; [reflexivity|apply gives_nil]|]. apply gives_app with (t := match id_type id with [] => [] | t => indent ++ quote "for type " ++ paint Name t ++ feed end).
      * destruct (id_type id) as [|c t] eqn:E; [apply gives_nil|]. unfold gives. squeezes.
      * apply gives_map with (g := fun c => indent ++ quote "with " ++ paint Name c ++ feed). intros c. squeezes.
  - assert (W : location_label (loc_type l) = where_text (loc_type l)) by now destruct (loc_type l). rewrite W. squeezes.
Qed.

Lemma message_gives what : exists calls, print_message mm with_color what = Ok calls /\ gives calls (cut_what mm with_color what).
Proof.
  destruct what as [m|macro expected actual]; cbn [print_message cut_what].
  - eexists. split; [reflexivity|]. unfold gives. squeezes.
  - unfold print_message.
    destruct (append_or_truncate_spec (new_string mm) [macro; lit "("; expected; lit ")"] (wf_new mm)) as (ss & E & W & C & K).
    cbn [List.concat] in K, E. rewrite app_nil_r, vcontent_new, vcap_new in K, E. cbn [app] in K, E. rewrite E. cbn [bind].
    set (shape := macro ++ quote "(" ++ expected ++ quote ")") in *.
    assert (KE : vcontent ss = fit mm shape) by exact K.
    rewrite KE. eexists. split; [reflexivity|]. destruct actual as [|a0 actual].
    + unfold gives. squeezes.
    + set (actual' := a0 :: actual) in *. unfold same_line.
      destruct ((64 <? length expected + length macro + 3) || (64 <? length actual' + 5)) eqn:B;
        destruct ((length macro + length expected + 3 <=? 64) && (length actual' + 5 <=? 64)) eqn:B'; unfold text, str in *; try lia; clear B B'; clearbody actual';
      unfold gives; squeezes.
Qed.

Lemma assertion_gives id sections captures l what label k e :
  exists m, print_message mm with_color what = Ok m /\
  gives ([make_colored label with_color (code_of k)] :: print_location with_color file e id sections captures l ++ m)
    (paint k label ++ place_text id_name id_type file number paint e id sections captures l ++ cut_what mm with_color what).
Proof.
  destruct (message_gives what) as (m & E & M). exists m. split; auto.
  apply gives_cons; [cbn [flat_map]; rewrite app_nil_r; apply squeezed_colored|]. apply gives_app; auto. apply place_gives.
Qed.
Lemma name_gives id : exists ss, full_name_buffer mn id = Ok ss /\ vcontent ss = firstn mn (full id).
Proof.
  set (parts := match id_type id with [] => [id_name id] | _ => [id_name id; lit " <"; id_type id; lit ">"] end).
  assert (E : List.concat parts = full id).
  { unfold parts, full, full_name_of. destruct (id_type id); cbn [List.concat]; [apply app_nil_r|]. now rewrite app_nil_r. }
  destruct (append_all_content parts (new_string mn) (wf_new mn)) as (b & Eb & W & C & K).
  rewrite vcontent_new, vcap_new in *. cbn [app] in *. rewrite E in *. exists b. split; [|auto].
  unfold full_name_buffer. fold parts. now rewrite Eb.
Qed.

Theorem event_gives counter e : e <> ListTestRunEnded -> exists calls, console_calls mm mn version with_color file duration counter e =
    Ok (match e with ListTestRunStarted => 0 | TestCaseListed _ _ => S counter | _ => counter end, calls) /\ gives calls (texts e).
Proof.
  destruct e; cbn [console_calls cut_text]; intros H; try contradiction.
  - eexists. split; [reflexivity|]. unfold gives. cbn [event_text]. squeezes.
  - eexists. split; [reflexivity|]. cbn [event_text]. unfold summary_text, gives.
    assert (Z : (0 <? skipped) = negb (skipped =? 0)) by (destruct skipped; reflexivity). rewrite Z.
    destruct success, (failed =? run), (skipped =? 0), (duration _) as [d|]; cbn [negb option_map]; squeezes.
  - destruct (name_gives id) as (ss & E & K). rewrite E. cbn [bind]. rewrite K. eexists. split; [reflexivity|]. unfold gives. cbn [event_text]. squeezes.
  - destruct (name_gives id) as (ss & E & K). rewrite E. cbn [bind]. rewrite K. eexists. split; [reflexivity|]. unfold gives. cbn [event_text].
    destruct (duration _) as [d|]; cbn [option_map]; squeezes.
  - eexists. split; [reflexivity|]. unfold gives. cbn [event_text]. squeezes.
  - eexists. split; [reflexivity|]. unfold gives. cbn [event_text]. squeezes.
  - destruct expected; [|destruct allowed].
    + destruct (assertion_gives id sections captures l what (quote "expected failure: ") Good (AssertionFailed id sections captures l what true allowed)) as (m & E & L).
      rewrite E. cbn [bind]. eexists. split; [reflexivity|exact L].
    + destruct (assertion_gives id sections captures l what (quote "allowed failure: ") Good (AssertionFailed id sections captures l what false true)) as (m & E & L).
      rewrite E. cbn [bind]. eexists. split; [reflexivity|exact L].
    + destruct (assertion_gives id sections captures l what (quote "failed: ") Bad (AssertionFailed id sections captures l what false false)) as (m & E & L).
      rewrite E. cbn [bind]. eexists. split; [reflexivity|exact L].
  - destruct (assertion_gives id sections captures l what (quote "passed: ") Good (AssertionSucceeded id sections captures l what)) as (m & E & L).
    rewrite E. cbn [bind]. eexists. split; [reflexivity|exact L].
  - destruct (assertion_gives id sections captures l (Message message) (quote "skipped: ") Warning (TestCaseSkipped id sections captures l message)) as (m & E & L).
    cbn [print_message] in E. injection E as <-. eexists. split; [reflexivity|exact L].
  - eexists. split; [reflexivity|]. unfold gives. cbn [event_text]. squeezes.
  - destruct (name_gives id) as (ss & E & K). rewrite E. cbn [bind]. rewrite K. eexists. split; [reflexivity|]. unfold gives. cbn [event_text].
    destruct (id_tags id) as [|c t]; squeezes.
  - eexists. split; [reflexivity|]. reflexivity.
Qed.

Theorem events_give l : forall counter, ~ In ListTestRunEnded l ->
  exists out, console_reports mm mn version with_color file duration counter l = Ok (counted counter l, out) /\ List.concat out = flat_map texts l.
Proof.
  induction l as [|e l IH]; intros counter H; [exists []; auto|].
  destruct (event_gives counter e) as (calls & E & L); [intros ->; apply H; now left|]. destruct (gives_prints _ _ L) as (o1 & E1 & C1).
  destruct (IH (match e with ListTestRunStarted => 0 | TestCaseListed _ _ => S counter | _ => counter end)) as (o2 & E2 & C2); [intros I; apply H; now right|].
  exists (o1 ++ o2). cbn [console_reports]. unfold console_report. rewrite E. cbn [bind]. rewrite E1. cbn [bind]. rewrite E2. cbn [bind].
  split; [reflexivity|]. rewrite concat_app, C1, C2. reflexivity.
Qed.
End Console.
