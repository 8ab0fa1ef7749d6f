(** The console reporter prints what happened (C60). *)
From Verif.Spec Require Import TextSpec FilterSpec PrintSpec EscapeSpec Events NumberSpec XmlSpec ConsoleSpec.
From Verif.Model Require Import Base Vector StringUtil Integer Print Filter Run Session Reporters.
From Verif.Proofs Require Import Lists VectorProofs AppendProofs IntegerProofs PrintProofs EscapeProofs XmlProofs ReportProofs ReportExamples ServiceProofs.
From Coq Require Import Lia ZifyBool ZifyNat ZifyN.
Local Open Scope list_scope.

Section Console.
Variables mm mn : nat.
Variable version : str.
Variable with_color : bool.
Variable file : event -> str.
Variable duration : event -> option str.
Hypothesis Hmm : 32 <= mm.

Notation paint := (painted with_color).
Notation prints := (console_prints mm).

Definition look (calls : list (list piece)) (t : text) : Prop :=
  Forall (Forall (printable mm)) calls /\ List.concat (map rendered (List.concat calls)) = t.
Lemma look_prints calls t : look calls t -> tells (prints calls) t.
Proof.
  intros (P & <-). induction P as [|c calls H _ IH]; cbn [console_prints]; [apply tells_nothing|].
  cbn [List.concat]. rewrite map_app, concat_app. apply tells_then; auto. now apply (tells_print mm).
Qed.
Lemma look_app a b t u : look a t -> look b u -> look (a ++ b) (t ++ u).
Proof. intros (A & <-) (B & <-). split; [now apply Forall_app|]. now rewrite concat_app, map_app, concat_app. Qed.
Lemma look_cons c b t u : Forall (printable mm) c -> List.concat (map rendered c) = t -> look b u -> look (c :: b) (t ++ u).
Proof. intros P E L. apply (look_app [c] b); auto. split; [repeat constructor; auto|]. cbn [List.concat]. now rewrite app_nil_r. Qed.
Lemma look_nil : look [] [].
Proof. split; constructor. Qed.
Lemma look_map {A} (f : A -> list piece) (g : A -> text) l :
  (forall x, In x l -> Forall (printable mm) (f x) /\ List.concat (map rendered (f x)) = g x) -> look (map f l) (flat_map g l).
Proof.
  induction l as [|x l IH]; intros H; cbn [map flat_map]; [apply look_nil|]. apply look_cons; [apply H; now left|apply H; now left|].
  apply IH. intros y I. apply H. now right.
Qed.

(** The codes of the model. *)
Definition code_of (k : style) : str :=
  match k with Good => color_pass | Bad => color_fail | Warning => color_skipped | Status => color_status | Name => color_highlight1 | Value => color_highlight2 end.
Lemma rendered_colored k s : rendered (make_colored s with_color (code_of k)) = paint k s.
Proof. unfold make_colored, painted. destruct with_color, k; cbn [rendered code_of]; unfold text, str; rewrite ?app_nil_r; reflexivity. Qed.
Lemma printable_colored k s : short_paint paint mm k s -> printable mm (make_colored s with_color (code_of k)).
Proof.
  unfold short_paint. rewrite <- rendered_colored. unfold make_colored. cbn [rendered printable]. intros H. split; [exact H|].
  destruct with_color, k; cbn [app length code_of color_pass color_fail color_skipped color_status color_highlight1 color_highlight2 color_reset esc lit list_ascii_of_string]; lia.
Qed.
Lemma short_label k s : length s <= 20 -> short_paint paint mm k s.
Proof.
  intros L. unfold short_paint, painted. destruct with_color; [|lia]. rewrite !app_length. destruct k; cbn [length quote list_ascii_of_string colour_code]; lia.
Qed.
Ltac pieces :=
  repeat (apply Forall_cons; [first [exact I | assumption
    | apply (printable_colored Name); first [assumption | apply short_label; cbn; lia]
    | apply (printable_colored Value); first [assumption | apply short_label; cbn; lia]
    | apply (printable_colored Good); apply short_label; cbn; lia
    | apply (printable_colored Bad); apply short_label; cbn; lia
    | apply (printable_colored Warning); apply short_label; cbn; lia ]|]); apply Forall_nil.
Ltac renders := cbn [what_text event_text]; unfold highlight1, highlight2, make_colored, painted; clear; cbn [map rendered List.concat];
  try destruct with_color; unfold text, str; rewrite ?app_nil_r, <- ?app_assoc; reflexivity.

Lemma place_look e id sections captures l :
  short_paint paint mm Name (id_name id) -> Forall (fun s => short_paint paint mm Name (sec_name s)) sections ->
  short_number decimal mm (loc_line l) -> short_paint paint mm Name (id_type id) -> Forall (short_paint paint mm Name) captures ->
  look (print_location with_color file e id sections captures l) (place_text id_name id_type file decimal paint e id sections captures l).
Proof.
  intros H1 H2 H3 H4 H5. unfold print_location, place_text.
  eapply eq_ind with (P := look _).
  - apply look_cons; [pieces|reflexivity|]. apply look_app; [apply look_map with (g := fun s => indent ++ quote "in section " ++ double_quote ++ paint Name (sec_name s) ++ double_quote ++ feed)|].
    + intros s I. rewrite Forall_forall in H2. specialize (H2 s I). split; [pieces|renders].
    + apply look_app; [apply look_cons; [pieces|reflexivity|apply look_nil]|]. apply look_app with (t := match id_type id with [] => [] | t => indent ++ quote "for type " ++ paint Name t ++ feed end).
      * destruct (id_type id) as [|c t] eqn:E; [apply look_nil|]. eapply eq_ind with (P := look _); [apply look_cons; [pieces|reflexivity|apply look_nil]|renders].
      * apply look_map with (g := fun c => indent ++ quote "with " ++ paint Name c ++ feed).
        intros c I. rewrite Forall_forall in H5. specialize (H5 c I). split; [pieces|renders].
  - assert (W : location_label (loc_type l) = where_text (loc_type l)) by now destruct (loc_type l). rewrite W. 
    unfold highlight1, make_colored, painted. cbn [map rendered List.concat]. rewrite ?app_nil_r, <- ?app_assoc. 
    destruct with_color; unfold text, str; rewrite ?app_nil_r, <- ?app_assoc; reflexivity.
Qed.

Lemma message_look what : displayable_payload paint mm what ->
  exists calls, print_message mm with_color what = Ok calls /\ look calls (what_text paint what).
Proof.
  destruct what as [m|macro expected actual]; cbn [displayable_payload print_message].
  - intros H. eexists. split; [reflexivity|]. eapply eq_ind with (P := look _); [apply look_cons; [pieces|reflexivity|apply look_nil]|renders].
  - intros (HX & HA). unfold print_message. cbn [what_text].
    destruct (append_or_truncate_spec (new_string mm) [macro; lit "("; expected; lit ")"] (wf_new mm)) as (ss & E & W & C & K).
    cbn [List.concat] in K, E. rewrite app_nil_r, vcontent_new, vcap_new in K, E. cbn [app] in K, E. rewrite E. cbn [bind].
    set (shape := macro ++ quote "(" ++ expected ++ quote ")") in *.
    assert (L : length shape <= mm).
    { unfold short_paint, painted in HX. destruct with_color; [|exact HX]. rewrite !app_length in HX. unfold text, str in *. lia. }
    assert (KE : vcontent ss = shape).
    { rewrite K. change (macro ++ lit "(" ++ expected ++ lit ")") with shape. apply Nat.leb_le in L. unfold text, str in *. now rewrite L. }
    rewrite KE. eexists. split; [reflexivity|]. destruct actual as [|a0 actual].
    + eapply eq_ind with (P := look _); [apply look_cons; [pieces|reflexivity|]; apply look_cons; [pieces|reflexivity|apply look_nil]|renders].
    + set (actual' := a0 :: actual) in *. unfold same_line.
      destruct ((64 <? length expected + length macro + 3) || (64 <? length actual' + 5)) eqn:B;
        destruct ((length macro + length expected + 3 <=? 64) && (length actual' + 5 <=? 64)) eqn:B'; unfold text, str in *; try lia; clear B B'.
      * eapply eq_ind with (P := look _); [apply look_cons; [pieces|reflexivity|]; apply look_cons; [pieces|reflexivity|apply look_nil]|clearbody actual'; renders].
      * eapply eq_ind with (P := look _); [apply look_cons; [pieces|reflexivity|]; apply look_cons; [pieces|reflexivity|apply look_nil]|clearbody actual'; renders].
Qed.

Notation shows := (displayable id_name id_type full duration decimal version paint mm mn).
Notation event_looks := (event_text id_name id_type full id_tags file duration decimal version paint).

Lemma assertion_look id sections captures l what label k e : displayable_assertion id_name id_type decimal paint mm id sections captures l what -> length label <= 20 ->
  exists m, print_message mm with_color what = Ok m /\
  look ([make_colored label with_color (code_of k)] :: print_location with_color file e id sections captures l ++ m)
    (paint k label ++ place_text id_name id_type file decimal paint e id sections captures l ++ what_text paint what).
Proof.
  intros (H1 & H2 & H3 & H4 & H5 & H6) L. destruct (message_look what H6) as (m & E & M). exists m. split; auto.
  apply look_cons; [apply Forall_cons; [apply printable_colored, short_label; auto|apply Forall_nil]| |].
  - cbn [map List.concat]. rewrite app_nil_r. apply rendered_colored.
  - apply look_app; auto. now apply place_look.
Qed.

Lemma skipped_look skipped : short_number decimal mm skipped ->
  look (if 0 <? skipped then [[Text (lit ", "); Number (decimal skipped); Text (lit " test cases skipped")]] else [])
    (if skipped =? 0 then [] else quote ", " ++ decimal skipped ++ quote " test cases skipped").
Proof.
  intros H. destruct skipped as [|k]; [apply look_nil|]. cbn [Nat.eqb]. change (0 <? S k) with true. cbv iota.
  eapply eq_ind with (P := look _); [apply look_cons; [pieces|reflexivity|apply look_nil]|]. renders.
Qed.
Lemma duration_look e : short_duration duration mm e ->
  look (match duration e with Some d => [[Text (lit ", "); Number d; Text (lit " seconds")]] | None => [] end)
    (match duration e with Some d => quote ", " ++ d ++ quote " seconds" | None => [] end).
Proof.
  unfold short_duration. destruct (duration e) as [d|]; intros H; [|apply look_nil]. eapply eq_ind with (P := look _); [apply look_cons; [pieces|reflexivity|apply look_nil]|]. renders.
Qed.
Lemma full_name_look id : length (full id) <= mn -> exists ss, full_name_buffer mn id = Ok ss /\ vcontent ss = full id.
Proof. intros L. destruct (full_name_content mn id L) as (ss & E & _ & _ & K). eauto. Qed.

Theorem event_look counter e : shows e -> exists calls, console_calls mm mn version with_color file duration counter e =
    Ok (match e with ListTestRunStarted => 0 | TestCaseListed _ _ => S counter | _ => counter end, calls) /\ look calls (event_looks e).
Proof.
  destruct e; cbn [displayable console_calls]; intros H.
  - destruct H as (H1 & H2). eexists. split; [reflexivity|]. eapply eq_ind with (P := look _); [apply look_cons; [pieces|reflexivity|]; apply look_cons; [pieces|reflexivity|apply look_nil]|renders].
  - destruct H as (H1 & H2 & H3 & H4 & H5). eexists. split; [reflexivity|]. cbn [event_text]. unfold summary_text.
    eapply eq_ind with (P := look _).
    { apply look_cons; [pieces|reflexivity|]. apply look_cons; [destruct success; pieces|reflexivity|].
      apply look_app; [now apply skipped_look|apply look_app; [now apply duration_look|apply look_cons; [pieces|reflexivity|apply look_nil]]]. }
    destruct success, (failed =? run); renders.
  - destruct H as (H1 & H2 & H3). destruct (full_name_look _ H1) as (ss & E & K). rewrite E. cbn [bind]. rewrite K. eexists. split; [reflexivity|].
    eapply eq_ind with (P := look _); [apply look_cons; [pieces|reflexivity|apply look_nil]|renders].
  - destruct H as (H1 & H2 & H3). destruct (full_name_look _ H1) as (ss & E & K). rewrite E. cbn [bind]. rewrite K. eexists. split; [reflexivity|].
    cbn [event_text]. revert H3. unfold short_duration. destruct (duration _) as [d|]; intros H3;
      (eapply eq_ind with (P := look _); [apply look_cons; [cbn [app]; pieces|reflexivity|apply look_nil]|cbn [app]; renders]).
  - destruct H as (H1 & H2). eexists. split; [reflexivity|]. eapply eq_ind with (P := look _); [apply look_cons; [pieces|reflexivity|apply look_nil]|renders].
  - eexists. split; [reflexivity|]. eapply eq_ind with (P := look _); [apply look_cons; [pieces|reflexivity|apply look_nil]|renders].
  - cbn [event_text]. destruct expected; [|destruct allowed].
    + destruct (assertion_look id sections captures l what (quote "expected failure: ") Good (AssertionFailed id sections captures l what true allowed) H ltac:(cbn; lia)) as (m & E & L).
      rewrite E. cbn [bind]. eexists. split; [reflexivity|exact L].
    + destruct (assertion_look id sections captures l what (quote "allowed failure: ") Good (AssertionFailed id sections captures l what false true) H ltac:(cbn; lia)) as (m & E & L).
      rewrite E. cbn [bind]. eexists. split; [reflexivity|exact L].
    + destruct (assertion_look id sections captures l what (quote "failed: ") Bad (AssertionFailed id sections captures l what false false) H ltac:(cbn; lia)) as (m & E & L).
      rewrite E. cbn [bind]. eexists. split; [reflexivity|exact L].
  - destruct (assertion_look id sections captures l what (quote "passed: ") Good (AssertionSucceeded id sections captures l what) H ltac:(cbn; lia)) as (m & E & L).
    rewrite E. cbn [bind]. eexists. split; [reflexivity|exact L].
  - destruct (assertion_look id sections captures l (Message message) (quote "skipped: ") Warning (TestCaseSkipped id sections captures l message) H ltac:(cbn; lia)) as (m & E & L).
    cbn [print_message] in E. injection E as <-. eexists. split; [reflexivity|exact L].
  - eexists. split; [reflexivity|]. eapply eq_ind with (P := look _); [apply look_cons; [pieces|reflexivity|apply look_nil]|renders].
  - destruct H.
  - destruct (full_name_look _ H) as (ss & E & K). rewrite E. cbn [bind]. rewrite K. eexists. split; [reflexivity|]. cbn [event_text].
    destruct (id_tags id) as [|c t]; (eapply eq_ind with (P := look _); [apply look_cons; [pieces|reflexivity|]; try (apply look_cons; [pieces|reflexivity|]); apply look_nil|renders]).
  - eexists. split; [reflexivity|]. apply look_nil.
Qed.

Definition counted (counter : nat) (l : list event) : nat :=
  fold_left (fun n (e : event) => match e with ListTestRunStarted => 0 | TestCaseListed _ _ => S n | _ => n end) l counter.

Theorem events_look l : forall counter, Forall shows l ->
  exists out, console_reports mm mn version with_color file duration counter l = Ok (counted counter l, out) /\ List.concat out = flat_map event_looks l.
Proof.
  induction l as [|e l IH]; intros counter H; [exists []; auto|]. inversion_clear H as [|? ? He Hl].
  destruct (event_look counter e He) as (calls & E & L). destruct (look_prints _ _ L) as (o1 & E1 & C1).
  destruct (IH (match e with ListTestRunStarted => 0 | TestCaseListed _ _ => S counter | _ => counter end) Hl) as (o2 & E2 & C2).
  exists (o1 ++ o2). cbn [console_reports]. unfold console_report. rewrite E. cbn [bind]. rewrite E1. cbn [bind]. rewrite E2. cbn [bind].
  split; [reflexivity|]. rewrite concat_app, C1, C2. reflexivity.
Qed.
End Console.

(** ** Listings *)
Theorem listing_look mm mn version with_color file duration counter (tests : list (test_id * nat)) : 32 <= mm ->
  Forall (fun t => length (full (fst t)) <= mn) tests -> length (decimal (length tests)) <= mm ->
  exists counter' out, console_reports mm mn version with_color file duration counter
      (ListTestRunStarted :: map (fun t => TestCaseListed (fst t) (snd t)) tests ++ [ListTestRunEnded]) = Ok (counter', out) /\
    List.concat out = listing_text id_name id_type full id_tags file duration decimal version (painted with_color) tests.
Proof.
  intros Hmm H L. set (l := ListTestRunStarted :: map (fun t => TestCaseListed (fst t) (snd t)) tests).
  destruct (events_look mm mn version with_color file duration Hmm l counter) as (out & E & C).
  { constructor; [exact I|]. apply Forall_forall. intros e Ie. apply in_map_iff in Ie as (t & <- & It). rewrite Forall_forall in H. now apply H. }
  assert (N : counted counter l = length tests).
  { unfold l, counted. cbn [fold_left].
    assert (G : forall k, fold_left (fun n (e : event) => match e with ListTestRunStarted => 0 | TestCaseListed _ _ => S n | _ => n end)
                 (map (fun t => TestCaseListed (fst t) (snd t)) tests) k = length tests + k).
    { clear. induction tests as [|t tests IH]; intros k; [reflexivity|]. cbn [map fold_left length]. rewrite IH. lia. }
    rewrite G. lia. }
  rewrite N in E.
  assert (A : forall a b c c1 o1 c2 o2, console_reports mm mn version with_color file duration c a = Ok (c1, o1) ->
    console_reports mm mn version with_color file duration c1 b = Ok (c2, o2) -> console_reports mm mn version with_color file duration c (a ++ b) = Ok (c2, o1 ++ o2)).
  { clear. induction a as [|e a IH]; intros b c c1 o1 c2 o2 E1 E2.
    - injection E1 as <- <-. exact E2.
    - cbn [console_reports app] in *. destruct (console_report mm mn version with_color file duration c e) as [[c3 o3]|]; [|discriminate]. cbn [bind] in *.
      destruct (console_reports mm mn version with_color file duration c3 a) as [[c4 o4]|] eqn:E4; [|discriminate]. cbn [bind] in *. injection E1 as -> <-.
      rewrite (IH _ _ _ _ _ _ E4 E2). cbn [bind]. now rewrite app_assoc. }
  assert (P : tells (console_prints mm [[Number (decimal (length tests)); Text (lit " matching test cases" ++ line_feed)]]) (decimal (length tests) ++ lit " matching test cases" ++ line_feed)).
  { apply look_prints. split; [|cbn [map rendered List.concat app]; now rewrite app_nil_r]. repeat constructor. exact L. }
  destruct P as (o2 & E2 & C2).
  exists (length tests), (out ++ o2). split.
  - change (ListTestRunStarted :: map (fun t => TestCaseListed (fst t) (snd t)) tests ++ [ListTestRunEnded]) with (l ++ [ListTestRunEnded]).
    eapply A; [exact E|]. cbn [console_reports]. unfold console_report. cbn [console_calls bind]. rewrite E2. cbn [bind]. now rewrite app_nil_r.
  - rewrite concat_app, C, C2. unfold listing_text, l. cbn [flat_map]. rewrite <- !app_assoc. do 2 f_equal.
    clear. induction tests as [|t tests IH]; [reflexivity|]. cbn [map flat_map]. now rewrite IH.
Qed.

(** ** Colours *)
Lemma un_app a b x y : uncoloured a b -> uncoloured x y -> uncoloured (a ++ x) (b ++ y).
Proof.
  intros H K. induction H as [|c t u C _ IH|s t u C _ IH]; [exact K| |].
  - cbn [app]. now apply un_char.
  - rewrite <- !app_assoc. now apply un_colour.
Qed.
Lemma un_same s : colourless s -> uncoloured s s.
Proof. induction s as [|c s IH]; intros H; [constructor|]. apply un_char; [intros ->; apply H; now left|]. apply IH. intros I. apply H. now right. Qed.
Lemma un_painted k s : colourless s -> uncoloured (painted true k s) (painted false k s).
Proof.
  intros H. unfold painted.
  change ([ascii_of_nat 27] ++ quote "[1;" ++ colour_code k ++ quote "m" ++ s ++ [ascii_of_nat 27] ++ quote "[0m")
    with ([ascii_of_nat 27] ++ quote "[" ++ (quote "1;" ++ colour_code k) ++ quote "m" ++ s ++ [ascii_of_nat 27] ++ quote "[0m").
  apply un_colour; [destruct k; cbn; intuition discriminate|]. rewrite <- (app_nil_r s) at 2. apply un_app; [now apply un_same|].
  change (quote "[0m") with (quote "[" ++ quote "0" ++ quote "m" ++ []). apply un_colour; [cbn; intuition discriminate|constructor].
Qed.
Lemma un_result t u : uncoloured t u -> colourless u.
Proof. induction 1 as [|c t u C _ IH|s t u C _ IH]; [easy| |auto]. intros [->|I]; auto. Qed.
Lemma un_flat {A} (f g : A -> text) l : (forall x, In x l -> uncoloured (f x) (g x)) -> uncoloured (flat_map f l) (flat_map g l).
Proof. induction l as [|x l IH]; intros H; [constructor|]. cbn [flat_map]. apply un_app; [apply H; now left|]. apply IH. intros y I. apply H. now right. Qed.
Definition has_no_escape (s : text) : bool := forallb (fun c => negb (aeqb c (ascii_of_nat 27))) s.
Lemma no_escape s : has_no_escape s = true -> colourless s.
Proof. intros H I. unfold has_no_escape in H. rewrite forallb_forall in H. specialize (H _ I). now vm_compute in H. Qed.
Lemma colourless_app a b : colourless a -> colourless b -> colourless (a ++ b).
Proof. intros A B I. apply in_app_iff in I as [I|I]; auto. Qed.
Lemma colourless_decimal n : colourless (decimal n).
Proof.
  unfold decimal, to_chars_uint. generalize (N.of_nat n), int_fuel. intros x fuel. revert x. induction fuel as [|fuel IH]; intros x; [easy|].
  cbn [to_chars_digits]. apply colourless_app; [destruct (10 <=? x)%N; [apply IH|easy]|]. destruct (nth_error digit_table _) as [c|] eqn:E; [|easy].
  apply nth_error_In in E. intros [->|[]]. revert E. cbn. intuition discriminate.
Qed.

Section Colours.
Variable version : str.
Variable file : event -> str.
Variable duration : event -> option str.
Notation looks b := (event_text id_name id_type full id_tags file duration decimal version (painted b)).

Ltac plain_text := first [assumption | apply colourless_decimal | apply no_escape; vm_compute; reflexivity
  | match goal with |- colourless (_ ++ _) => apply colourless_app; plain_text end ].
Ltac un := repeat first [match goal with |- uncoloured (_ ++ _) (_ ++ _) => apply un_app end | apply un_painted; plain_text | apply un_same; plain_text].

Lemma un_place e id sections captures l : colourless (file e) -> colourless (id_name id) -> colourless (id_type id) -> Forall colourless (map sec_name sections) -> Forall colourless captures ->
  uncoloured (place_text id_name id_type file decimal (painted true) e id sections captures l) (place_text id_name id_type file decimal (painted false) e id sections captures l).
Proof.
  intros H1 H2 H3 H4 H5. unfold place_text. un.
  - apply un_flat. intros s I. rewrite Forall_forall in H4. pose proof (H4 (sec_name s) (in_map _ _ _ I)). un.
  - destruct (loc_type l); un.
  - destruct (id_type id) as [|c t]; [constructor|un].
  - apply un_flat. intros c I. rewrite Forall_forall in H5. pose proof (H5 c I). un.
Qed.
Lemma un_what what : Forall colourless (match what with Message m => [m] | Expression macro expected actual => [macro; expected; actual] end) ->
  uncoloured (what_text (painted true) what) (what_text (painted false) what).
Proof.
  destruct what as [m|macro expected actual]; cbn [what_text]; intros H.
  - inversion_clear H. un.
  - inversion_clear H as [|? ? H1 H2]. inversion_clear H2 as [|? ? H3 H4]. inversion_clear H4 as [|? ? H5 _].
    destruct actual as [|c actual]; [un|]. destruct (same_line _ _ _); un.
Qed.
Theorem un_event e : Forall colourless (texts_of id_name id_type full id_tags file duration version e) -> uncoloured (looks true e) (looks false e).
Proof.
  unfold texts_of. intros H. apply Forall_cons_iff in H as (F & H). apply Forall_app in H as (D & H).
  assert (DD : match duration e with Some d => colourless d | None => True end) by (destruct (duration e); [now inversion D|exact I]). clear D.
  destruct e; cbn [event_text]; unfold summary_text; repeat match goal with H : Forall _ (_ :: _) |- _ => apply Forall_cons_iff in H as (? & H) end.
  - un.
  - destruct (duration _); destruct success; destruct (failed =? run); destruct (skipped =? 0); un; constructor.
  - un.
  - destruct (duration _); un; constructor.
  - un.
  - un.
  - apply Forall_app in H as (H & H'). inversion_clear H as [|? ? H1 H2]. inversion_clear H2 as [|? ? H3 _]. apply Forall_app in H' as (H4 & H'). apply Forall_app in H' as (H5 & H6).
    apply un_app; [destruct expected; [|destruct allowed]; un|]. apply un_app; [now apply un_place|now apply un_what].
  - apply Forall_app in H as (H & H'). inversion_clear H as [|? ? H1 H2]. inversion_clear H2 as [|? ? H3 _]. apply Forall_app in H' as (H4 & H'). apply Forall_app in H' as (H5 & H6).
    apply un_app; [un|]. apply un_app; [now apply un_place|now apply un_what].
  - apply Forall_app in H as (H & H'). inversion_clear H as [|? ? H1 H2]. inversion_clear H2 as [|? ? H3 H7]. inversion_clear H7 as [|? ? H8 _]. apply Forall_app in H' as (H4 & H5).
    apply un_app; [un|]. apply un_app; [now apply un_place|]. apply un_what. now repeat constructor.
  - un.
  - constructor.
  - destruct (id_tags id); un; constructor.
  - constructor.
Qed.
End Colours.

(** ** Every report *)
Lemma fine_prints mm calls : fine (console_prints mm calls).
Proof. induction calls as [|c calls IH]; cbn [console_prints]; [apply fine_nothing|]. apply fine_then; auto. apply registry_print_total. Qed.
Lemma full_name_buffer_ok mn id : exists ss, full_name_buffer mn id = Ok ss.
Proof.
  unfold full_name_buffer.
  destruct (append_all_content (match id_type id with [] => [id_name id] | _ => [id_name id; lit " <"; id_type id; lit ">"] end) (new_string mn) (wf_new mn)) as (b & E & W & _).
  rewrite E. cbn [bind]. eauto.
Qed.
Lemma print_message_ok mm with_color what : exists m, print_message mm with_color what = Ok m.
Proof.
  destruct what as [m|macro expected actual]; cbn [print_message]; eauto.
  destruct (append_or_truncate_spec (new_string mm) [macro; lit "("; expected; lit ")"] (wf_new mm)) as (ss & E & _). rewrite E. cbn [bind]. eauto.
Qed.
Theorem console_fine mm mn version with_color file duration l : forall counter, exists counter' out,
  console_reports mm mn version with_color file duration counter l = Ok (counter', out).
Proof.
  induction l as [|e l IH]; intros counter; cbn [console_reports]; eauto. unfold console_report.
  assert (C : exists c calls, console_calls mm mn version with_color file duration counter e = Ok (c, calls)).
  { destruct e; cbn [console_calls]; eauto;
      try (destruct (full_name_buffer_ok mn id) as (ss & ->); cbn [bind]; eauto; fail);
      destruct (print_message_ok mm with_color what) as (m & ->); cbn [bind]; eauto. }
  destruct C as (c & calls & ->). cbn [bind]. destruct (fine_prints mm calls) as (o & ->). cbn [bind]. destruct (IH c) as (c2 & o2 & ->). cbn [bind]. eauto.
Qed.

(** ** Forms *)
Theorem console_looks : exists shown : nat -> text, (forall n, (N.of_nat n < 2 ^ 64)%N -> writes 10 (shown n) (N.of_nat n)) /\
  forall (mm mn : nat) (version : text) (with_color : bool) (file : event -> text) (duration : event -> option text) (counter : nat),
  let full_name := fun id => full_name_of (id_name id) (id_type id) in
  32 <= mm ->
  (forall l : list event, Forall (displayable id_name id_type full_name duration shown version (painted with_color) mm mn) l ->
   exists counter' out, console_reports mm mn version with_color file duration counter l = Ok (counter', out) /\
   List.concat out = flat_map (event_text id_name id_type full_name id_tags file duration shown version (painted with_color)) l) /\
  (forall tests : list (test_id * nat), Forall (fun t => length (full_name (fst t)) <= mn) tests -> length (shown (length tests)) <= mm ->
   exists counter' out, console_reports mm mn version with_color file duration counter
       (ListTestRunStarted :: map (fun t => TestCaseListed (fst t) (snd t)) tests ++ [ListTestRunEnded]) = Ok (counter', out) /\
   List.concat out = listing_text id_name id_type full_name id_tags file duration shown version (painted with_color) tests).
Proof.
  exists decimal. split; [intros n R; now apply decimal_short|]. intros mm mn version with_color file duration counter full_name Hmm. split.
  - intros l H. destruct (events_look mm mn version with_color file duration Hmm l counter H) as (out & E & C). eauto.
  - intros tests H L. now apply listing_look.
Qed.
Theorem console_colours : forall (mm mn : nat) (version : text) (file : event -> text) (duration : event -> option text) (c1 c2 n1 n2 : nat)
  (l : list event) (coloured plain : list text),
  let full_name := fun id => full_name_of (id_name id) (id_type id) in
  32 <= mm -> Forall (displayable id_name id_type full_name duration decimal version (painted true) mm mn) l ->
  Forall (fun e => Forall colourless (texts_of id_name id_type full_name id_tags file duration version e)) l ->
  console_reports mm mn version true file duration c1 l = Ok (n1, coloured) ->
  console_reports mm mn version false file duration c2 l = Ok (n2, plain) ->
  uncoloured (List.concat coloured) (List.concat plain) /\ colourless (List.concat plain).
Proof.
  intros mm mn version file duration c1 c2 n1 n2 l coloured plain full_name Hmm S H E1 E2.
  destruct (events_look mm mn version true file duration Hmm l c1 S) as (o1 & E1' & C1).
  assert (S' : Forall (displayable id_name id_type full duration decimal version (painted false) mm mn) l).
  { eapply Forall_impl; [|exact S].
    assert (P : forall k s, short_paint (painted true) mm k s -> short_paint (painted false) mm k s).
    { unfold short_paint, painted. intros k s L. rewrite !app_length in L. unfold text in *. lia. }
    assert (A : forall id sections captures loc what, displayable_assertion id_name id_type decimal (painted true) mm id sections captures loc what ->
                displayable_assertion id_name id_type decimal (painted false) mm id sections captures loc what).
    { intros id sections captures loc what (H1 & H2 & H3 & H4 & H5 & H6). repeat split; auto.
      - eapply Forall_impl; [|exact H2]. auto.
      - eapply Forall_impl; [|exact H5]. auto.
      - destruct what; cbn [displayable_payload] in *; intuition auto. }
    intros e. fold full. destruct e; cbn [displayable]; intuition auto. }
  destruct (events_look mm mn version false file duration Hmm l c2 S') as (o2 & E2' & C2).
  rewrite E1' in E1. rewrite E2' in E2. injection E1 as <- <-. injection E2 as <- <-. rewrite C1, C2.
  assert (U : uncoloured (flat_map (event_text id_name id_type full id_tags file duration decimal version (painted true)) l)
                (flat_map (event_text id_name id_type full id_tags file duration decimal version (painted false)) l)).
  { apply un_flat. intros e I. rewrite Forall_forall in H. now apply un_event, H. }
  split; auto. eapply un_result, U.
Qed.

(** ** An example *)
Definition failed_text : text :=
  quote "failed: running test case " ++ dquote ++ quote "n" ++ dquote ++ line_feed ++
  quote "          in section " ++ dquote ++ quote "s&2" ++ dquote ++ line_feed ++
  quote "          at f:3" ++ line_feed ++
  quote "          CHECK(a < b), got: 3 >= 2" ++ line_feed.
Lemma nested_displayable :
  match run_selected_tests small 5 Full [nested_test] (quote "p") [quote "a*"] (fun _ => Ok true) with
  | Ok (events, _) =>
    (forall b, Forall (displayable id_name id_type (fun id => full_name_of (id_name id) (id_type id)) (fun _ => Some (quote "12")) decimal (quote "1.2") (painted b) 64 20) events) /\
    Forall (fun e => Forall colourless (texts_of id_name id_type (fun id => full_name_of (id_name id) (id_type id)) id_tags (fun _ => quote "f") (fun _ => Some (quote "12")) (quote "1.2") e)) events /\
    match console_reports 64 20 (quote "1.2") false (fun _ => quote "f") (fun _ => Some (quote "12")) 0 events with
    | Ok (_, out) => exists a b, List.concat out = a ++ failed_text ++ b
    | Err _ => False
    end
  | Err _ => False
  end.
Proof.
  destruct (run_selected_tests small 5 Full [nested_test] (quote "p") [quote "a*"] (fun _ => Ok true)) as [[l b]|] eqn:E; [|vm_compute in E; discriminate E].
  vm_compute in E. injection E as <- <-. split; [|split].
  - intros b. repeat (apply Forall_cons || apply Forall_nil); unfold displayable, displayable_assertion, displayable_payload, short_duration, short_number;
      repeat match goal with |- _ /\ _ => split end;
      match goal with
      | |- short_paint _ _ _ _ => unfold short_paint; apply Nat.leb_le; destruct b; vm_compute; reflexivity
      | |- _ <= _ => apply Nat.leb_le; vm_compute; reflexivity
      | |- Forall _ [] => apply Forall_nil
      | |- Forall _ _ => repeat (apply Forall_cons || apply Forall_nil); unfold short_paint; apply Nat.leb_le; destruct b; vm_compute; reflexivity
      | |- True => exact I
      end.
  - repeat (apply Forall_cons || apply Forall_nil); apply no_escape; vm_compute; reflexivity.
  - match goal with |- match ?x with _ => _ end => destruct x as [[n out]|] eqn:E; [|vm_compute in E; discriminate E] end. vm_compute in E. injection E as <- <-.
    match goal with |- exists a b, ?x = _ =>
      let k := constr:(match Base.find x failed_text with Some k => k | None => 0 end) in exists (firstn k x), (skipn (k + length failed_text) x) end. vm_compute. reflexivity.
Qed.
