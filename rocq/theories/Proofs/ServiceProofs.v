(** The TeamCity reporter prints the service messages that say what happened (C59). *)
From Verif.Spec Require Import TextSpec FilterSpec PrintSpec EscapeSpec Events NumberSpec XmlSpec ServiceSpec.
From Verif.Model Require Import Base Vector StringUtil Integer Print Filter Run Session Reporters.
From Verif.Proofs Require Import Lists VectorProofs AppendProofs IntegerProofs PrintProofs EscapeProofs XmlProofs ReportProofs ReportExamples.
From Coq Require Import Lia ZifyBool ZifyNat ZifyN.
Local Open Scope list_scope.

Section Service.
Variables mm mn : nat.
Variable file : event -> str.
Variable duration : event -> option str.

Definition tells (a : tc) (t : text) : Prop := exists out, a = Ok out /\ List.concat out = t.
Definition encodes (a : tc) (s : text) : Prop := exists t, tells a t /\ encoded teamcity_code s t.

Lemma tells_then a b t u : tells a t -> tells b u -> tells (tc_then a b) (t ++ u).
Proof.
  intros (o1 & -> & C1) (o2 & -> & C2). exists (o1 ++ o2). cbn [tc_then bind]. split; auto. rewrite concat_app. congruence.
Qed.
Lemma tells_nothing : tells (Ok []) [].
Proof. now exists []. Qed.
Lemma tells_eq a t u : tells a t -> t = u -> tells a u.
Proof. now intros H <-. Qed.
Lemma tells_text t s f u : t = Ok s -> tells (f s) u -> tells (tc_text t f) u.
Proof. intros -> H. exact H. Qed.
Lemma tells_print l : Forall (printable mm) l -> tells (tc_print mm l) (List.concat (map rendered l)).
Proof. intros P. destruct (registry_print_spec mm l P) as (out & E & C & _). exists out. auto. Qed.

Lemma encoded_app s t s' t' : encoded teamcity_code s t -> encoded teamcity_code s' t' -> encoded teamcity_code (s ++ s') (t ++ t').
Proof. rewrite !(encoded_encode _ _ _ tc_distinct). intros -> ->. now rewrite encode_app. Qed.
Lemma clean_encoded s : clean s -> encoded teamcity_code s s.
Proof. intros H. apply (encoded_encode _ _ _ tc_distinct). symmetry. apply encode_id, H. Qed.
Lemma clean_lit s : forallb (fun c => negb (existsb (aeqb c) (map fst teamcity_code))) s = true -> clean s.
Proof.
  intros H c I S. rewrite forallb_forall in H. specialize (H c I). apply negb_true_iff in H.
  assert (existsb (aeqb c) (map fst teamcity_code) = true); [|congruence]. apply existsb_exists. exists c. split; auto. now apply aeqb_eq.
Qed.
Lemma lit_encoded s : forallb (fun c => negb (existsb (aeqb c) (map fst teamcity_code))) s = true -> encoded teamcity_code s s.
Proof. intros H. apply clean_encoded, clean_lit, H. Qed.
Lemma feed_encoded : encoded teamcity_code feed (lit "|n").
Proof. apply (encoded_encode _ _ _ tc_distinct). reflexivity. Qed.

Lemma room_escaped s : room mm s -> exists e, tc_make_escaped mm s = Ok e /\ encoded teamcity_code s e.
Proof. intros (t & E & L). exists t. split; auto. now apply tc_made_fits. Qed.
Lemma room_length n s : room n s -> length s <= n.
Proof. intros (t & E & L). pose proof (encoded_longer _ _ _ tc_long E). lia. Qed.
Lemma full_name_room id : room mn (full id) -> exists e, tc_full_name mn id = Ok e /\ encoded teamcity_code (full id) e.
Proof.
  intros F. destruct (full_name_content mn id (room_length _ _ F)) as (ss & E & W & C & K). destruct F as (t & Et & L).
  destruct (tc_faithful ss t W) as (ss' & E' & K'); [congruence|lia|]. exists t. unfold tc_full_name. rewrite E. cbn [bind].
  rewrite E'. cbn [bind]. rewrite K'. auto.
Qed.

Definition filter_texts (l : list text) : text := flat_map (fun f : text => quote " " ++ [ascii_of_nat 34] ++ f ++ [ascii_of_nat 34]) l.
Lemma tc_filter_loop_content l : forall ss, wf ss -> length (vcontent ss ++ filter_texts l) <= vcap ss ->
  exists ss', tc_filter_loop l ss = Ok ss' /\ wf ss' /\ vcap ss' = vcap ss /\ vcontent ss' = vcontent ss ++ filter_texts l.
Proof.
  induction l as [|f l IH]; intros ss W L.
  - exists ss. cbn [filter_texts flat_map]. rewrite app_nil_r. auto.
  - set (p := lit " " ++ dquote).
    change (tc_filter_loop (f :: l) ss) with (do (ss1, _) <- append_or_truncate ss [p; f; dquote] ;; tc_filter_loop l ss1).
    destruct (append_or_truncate_spec ss [p; f; dquote] W) as (ss1 & E1 & W1 & C1 & K1).
    cbn [List.concat] in K1, E1. rewrite app_nil_r in K1, E1.
    assert (EL : filter_texts (f :: l) = (p ++ f ++ dquote) ++ filter_texts l).
    { unfold filter_texts. cbn [flat_map]. unfold p. now rewrite <- !app_assoc. }
    rewrite EL in *.
    assert (LL : length (vcontent ss ++ p ++ f ++ dquote) <=? vcap ss = true).
    { apply Nat.leb_le. unfold text, str in *. rewrite !app_length in *. lia. }
    rewrite LL in K1. rewrite E1. cbn [bind].
    destruct (IH ss1 W1) as (ss' & E' & W' & C' & K').
    { rewrite K1, C1. rewrite <- !app_assoc in *. exact L. }
    exists ss'. rewrite E'. split; [auto|]. split; [auto|]. split; [congruence|]. rewrite K', K1. now rewrite <- !app_assoc.
Qed.
Lemma suite_name_room name filters : room mm (suite_name name filters) ->
  exists e, tc_suite_name mm name filters = Ok e /\ encoded teamcity_code (suite_name name filters) e.
Proof.
  intros F. pose proof (room_length _ _ F) as LL. destruct F as (t & Et & L). unfold tc_suite_name.
  unfold suite_name in LL. fold (filter_texts filters) in LL.
  destruct (new_truncated mm name) as (ss1 & b1 & E1 & W1 & C1 & K1). rewrite E1. cbn [bind].
  rewrite fit_id in K1 by (rewrite app_length in LL; unfold text, str in *; lia).
  destruct (tc_filter_loop_content filters ss1 W1) as (ss & E & W & C & K).
  { rewrite K1, C1. exact LL. }
  rewrite E. cbn [bind]. destruct (tc_faithful ss t W) as (ss' & E' & K').
  - rewrite K, K1. exact Et.
  - lia.
  - rewrite E'. cbn [bind]. rewrite K'. eauto.
Qed.

Lemma read_clean : forall s acc x, read 10 acc s = Some x -> clean s.
Proof.
  induction s as [|c s IH]; intros acc x H d I; [destruct I|]. cbn [read] in H. destruct (digit_value c) eqn:D; [|discriminate].
  destruct (n <? 10)%N eqn:L; [|discriminate]. destruct I as [<-|I]; [|eapply IH; eauto].
  intros S. cbn -[ascii_of_nat] in S. repeat (destruct S as [<-|S]; [vm_compute in D; discriminate D|]). destruct S.
Qed.
Lemma line_clean n : in_range n -> encoded teamcity_code (decimal n) (decimal n).
Proof. intros R. destruct (decimal_short n R) as (_ & _ & (W & _)). apply clean_encoded. eapply read_clean, W. Qed.

(** ** Assertions *)
Lemma captures_told l : Forall (room mm) l ->
  encodes (tc_captures mm l) (flat_map (fun c : text => quote "with " ++ c ++ feed) l).
Proof.
  induction 1 as [|c l H _ (t & T & E)]; [exists []; split; [apply tells_nothing|apply enc_nil]|].
  destruct (room_escaped c H) as (e & M & N). cbn [tc_captures flat_map]. eexists. split.
  - apply tells_then; [|exact T]. eapply tells_text; [exact M|]. apply tells_print. repeat constructor.
  - cbn [map rendered List.concat]. apply encoded_app; [|exact E]. apply encoded_app; [now apply lit_encoded|]. apply encoded_app; [exact N|].
    rewrite app_nil_r. apply feed_encoded.
Qed.

Definition quoted_by (a : tc) (s : text) : Prop :=
  exists t, tells a (apostrophe ++ t ++ apostrophe) /\ encoded teamcity_code s t.
Definition ended_by (a : tc) (s : text) : Prop := exists t, tells a (t ++ apostrophe) /\ encoded teamcity_code s t.

Lemma ended_message m : room mm m -> ended_by (tc_text (tc_make_escaped mm m) (fun t => tc_print mm [Text (lit "  "); Text t; Text apostrophe])) (quote "  " ++ m).
Proof.
  intros H. destruct (room_escaped m H) as (e & M & N). exists (lit "  " ++ e). split.
  - eapply tells_text; [exact M|]. eapply tells_eq; [apply tells_print; repeat constructor|]. cbn [map rendered List.concat]. now rewrite app_nil_r, <- app_assoc.
  - apply encoded_app; [now apply lit_encoded|exact N].
Qed.

Lemma payload_told what : telling_payload mm what ->
  ended_by (match what with
   | Message message => tc_text (tc_make_escaped mm message) (fun t => tc_print mm [Text (lit "  "); Text t; Text apostrophe])
   | Expression type expected actual =>
     tc_then (tc_text (tc_make_escaped mm expected) (fun t =>
              tc_print mm [Text (lit "  "); Text type; Text (lit "("); Text t; Text (lit ")")]))
     (match actual with
      | [] => tc_print mm [Text apostrophe]
      | _ =>
        if (64 <? length expected + length type + 3) || (64 <? length actual + 5) then
          tc_text (tc_make_escaped mm actual) (fun t =>
          tc_print mm [Text (lit "|n"); Text (lit "  "); Text (lit "got: "); Text t; Text apostrophe])
        else
          tc_text (tc_make_escaped mm actual) (fun t => tc_print mm [Text (lit ", got: "); Text t; Text apostrophe])
      end)
   end) (quote "  " ++ what_text what).
Proof.
  destruct what as [m|macro expected actual]; [apply ended_message|]. intros (C & X & A). cbn [what_text].
  destruct (room_escaped expected X) as (x & MX & NX).
  assert (P : tells (tc_text (tc_make_escaped mm expected) (fun t => tc_print mm [Text (lit "  "); Text macro; Text (lit "("); Text t; Text (lit ")")]))
                (lit "  " ++ macro ++ lit "(" ++ x ++ lit ")")).
  { eapply tells_text; [exact MX|]. eapply tells_eq; [apply tells_print; repeat constructor|]. cbn [map rendered List.concat]. now rewrite app_nil_r. }
  assert (PE : encoded teamcity_code (quote "  " ++ macro ++ quote "(" ++ expected ++ quote ")") (lit "  " ++ macro ++ lit "(" ++ x ++ lit ")")).
  { apply encoded_app; [now apply lit_encoded|]. apply encoded_app; [now apply clean_encoded|]. apply encoded_app; [now apply lit_encoded|].
    apply encoded_app; [exact NX|now apply lit_encoded]. }
  destruct actual as [|a0 actual].
  - eexists. split; [|exact PE]. apply tells_then; [exact P|]. eapply tells_eq; [apply tells_print; repeat constructor|]. reflexivity.
  - set (actual' := a0 :: actual) in *. destruct (room_escaped actual' A) as (y & MY & NY). unfold same_line.
    destruct ((64 <? length expected + length macro + 3) || (64 <? length actual' + 5)) eqn:B;
      destruct ((length macro + length expected + 3 <=? 64) && (length actual' + 5 <=? 64)) eqn:B'; unfold text, str in *; try lia; clear B B'.
    + exists ((lit "  " ++ macro ++ lit "(" ++ x ++ lit ")") ++ (lit "|n" ++ lit "  got: ") ++ y). split.
      * eapply tells_eq; [apply tells_then; [exact P|]|].
        -- eapply tells_text; [exact MY|]. apply tells_print. repeat constructor.
        -- cbn [map rendered List.concat]. rewrite app_nil_r, <- !app_assoc. reflexivity.
      * eapply eq_ind with (P := fun z => encoded teamcity_code z _);
          [apply encoded_app; [exact PE|]; apply encoded_app; [|exact NY]; apply encoded_app; [apply feed_encoded|now apply lit_encoded]|].
        now rewrite <- !app_assoc.
    + exists ((lit "  " ++ macro ++ lit "(" ++ x ++ lit ")") ++ lit ", got: " ++ y). split.
      * eapply tells_eq; [apply tells_then; [exact P|]|].
        -- eapply tells_text; [exact MY|]. apply tells_print. repeat constructor.
        -- cbn [map rendered List.concat]. rewrite app_nil_r, <- !app_assoc. reflexivity.
      * eapply eq_ind with (P := fun z => encoded teamcity_code z _);
          [apply encoded_app; [exact PE|]; apply encoded_app; [now apply lit_encoded|exact NY]|].
        now rewrite <- !app_assoc.
Qed.

Lemma assertion_told e captures l what : room mm (file e) -> in_range (loc_line l) -> length (decimal (loc_line l)) <= mm ->
  Forall (room mm) captures -> telling_payload mm what ->
  quoted_by (tc_print_assertion mm (file e) captures l what) (details file decimal e captures l what).
Proof.
  intros F R LL C P. destruct (room_escaped _ F) as (f & MF & NF). destruct (captures_told captures C) as (c & TC & EC).
  destruct (payload_told what P) as (p & TP & EP). exists (f ++ lit ":" ++ decimal (loc_line l) ++ lit "|n" ++ c ++ p). split.
  - unfold tc_print_assertion. eapply tells_eq.
    + apply tells_then; [eapply tells_text; [exact MF|]; apply tells_print; repeat constructor; exact LL|]. apply tells_then; [exact TC|exact TP].
    + cbn [map rendered List.concat]. rewrite app_nil_r, <- !app_assoc. reflexivity.
  - unfold details. apply encoded_app; [exact NF|]. apply encoded_app; [now apply lit_encoded|]. apply encoded_app; [now apply line_clean|].
    apply encoded_app; [apply feed_encoded|]. apply encoded_app; [exact EC|exact EP].
Qed.

(** ** Messages *)
Inductive told_args : list (str * tc_value) -> list (text * text) -> Prop :=
| told_no_arg : told_args [] []
| told_text_arg key s v args l : word key -> encoded teamcity_code s v -> told_args args l -> told_args ((key, TcText v) :: args) ((key, s) :: l)
| told_assertion_arg key s f captures loc what args l : word key -> quoted_by (tc_print_assertion mm f captures loc what) s -> told_args args l ->
    told_args ((key, TcAssertion f captures loc what) :: args) ((key, s) :: l).

Lemma args_told args l : told_args args l -> exists t, tells (tc_args mm args) t /\ values_text l t.
Proof.
  induction 1 as [|key s v args l K E _ (t & T & V)|key s f captures loc what args l K (v & Q & E) _ (t & T & V)].
  - exists []. split; [apply tells_nothing|constructor].
  - exists (quote " " ++ key ++ quote "=" ++ [ascii_of_nat 39] ++ v ++ [ascii_of_nat 39] ++ t). split; [|now constructor].
    cbn [tc_args]. eapply tells_eq; [apply tells_then; [apply tells_print; repeat constructor|apply tells_then; [apply tells_print; repeat constructor|exact T]]|].
    cbn [map rendered List.concat]. rewrite !app_nil_r, <- !app_assoc. reflexivity.
  - exists (quote " " ++ key ++ quote "=" ++ [ascii_of_nat 39] ++ v ++ [ascii_of_nat 39] ++ t). split; [|now constructor].
    cbn [tc_args]. eapply tells_eq; [apply tells_then; [apply tells_print; repeat constructor|apply tells_then; [exact Q|exact T]]|].
    cbn [map rendered List.concat]. rewrite !app_nil_r, <- !app_assoc. reflexivity.
Qed.
Definition sends (a : tc) (m : list message) : Prop := exists t, tells a t /\ message_lines m t.
Lemma message_told name args l : word name -> told_args args l -> sends (tc_send_message mm name args) [(name, l)].
Proof.
  intros W T. destruct (args_told _ _ T) as (t & TT & V). exists ((quote "##teamCity[" ++ name ++ t ++ quote "]" ++ [ascii_of_nat 10]) ++ []). split.
  - unfold tc_send_message. eapply tells_eq; [apply tells_then; [apply tells_print; repeat constructor|apply tells_then; [exact TT|apply tells_print; repeat constructor]]|].
    cbn [map rendered List.concat]. rewrite !app_nil_r, <- !app_assoc. reflexivity.
  - apply a_line; [|constructor]. split; [exact W|]. exists t. split; auto.
Qed.
Lemma sends_text t s f m : t = Ok s -> sends (f s) m -> sends (tc_text t f) m.
Proof. intros -> H. exact H. Qed.
Lemma sends_nothing : sends (Ok []) [].
Proof. exists []. split; [apply tells_nothing|constructor]. Qed.

Ltac is_word := split; [discriminate|reflexivity].

Lemma details_told e id captures l what name key : telling_details full file decimal mm mn e id captures l what -> word name -> word key ->
  sends (tc_text (tc_full_name mn id) (fun n => tc_send_message mm name [(lit "name", TcText n); (key, TcAssertion (file e) captures l what)]))
    [(name, [named (full id); (key, details file decimal e captures l what)])].
Proof.
  intros (N & F & R & LL & C & P) WN WK. destruct (full_name_room id N) as (n & MN & EN). eapply sends_text; [exact MN|]. apply message_told; [exact WN|].
  constructor; [is_word|exact EN|]. constructor; [exact WK|now apply assertion_told|constructor].
Qed.

Theorem report_told e : telling full file duration decimal mm mn e -> sends (tc_report mm mn file duration e) (messages_of full file duration decimal e).
Proof.
  destruct e; cbn [telling messages_of tc_report]; intros H; try apply sends_nothing.
  - destruct (suite_name_room _ _ H) as (n & M & E). eapply sends_text; [exact M|]. apply message_told; [is_word|]. constructor; [is_word|exact E|constructor].
  - destruct (suite_name_room _ _ H) as (n & M & E). eapply sends_text; [exact M|]. apply message_told; [is_word|]. constructor; [is_word|exact E|constructor].
  - destruct (full_name_room _ H) as (n & M & E). eapply sends_text; [exact M|]. apply message_told; [is_word|]. constructor; [is_word|exact E|constructor].
  - destruct H as (H & D). destruct (full_name_room _ H) as (n & M & E). eapply sends_text; [exact M|]. destruct (duration _) as [d|].
    + destruct D as (D & L). destruct (new_truncated 32 d) as (ss & b & ED & _ & _ & K). rewrite fit_id in K by auto.
      eapply sends_text with (s := d); [rewrite ED; cbn [bind]; now rewrite K|]. apply message_told; [is_word|].
      constructor; [is_word|exact E|]. constructor; [is_word|now apply clean_encoded|constructor].
    + apply message_told; [is_word|]. constructor; [is_word|exact E|constructor].
  - destruct H as (N & D). apply message_told; [is_word|]. constructor; [is_word|now apply clean_encoded|]. constructor; [is_word|now apply clean_encoded|constructor].
  - apply message_told; [is_word|]. constructor; [is_word|now apply clean_encoded|constructor].
  - destruct (expected || allowed); apply details_told; auto; is_word.
  - apply details_told; auto; is_word.
  - apply details_told; auto; is_word.
  - destruct H.
Qed.

Lemma lines_app l1 t1 l2 t2 : message_lines l1 t1 -> message_lines l2 t2 -> message_lines (l1 ++ l2) (t1 ++ t2).
Proof. intros A B. induction A; cbn [app]; auto. rewrite <- app_assoc. constructor; auto. Qed.

Theorem reports_told l : Forall (telling full file duration decimal mm mn) l ->
  sends (tc_reports mm mn file duration l) (flat_map (messages_of full file duration decimal) l).
Proof.
  induction 1 as [|e l H _ (u & U & LU)]; [apply sends_nothing|]. destruct (report_told e H) as (t & T & LT). cbn [tc_reports flat_map].
  exists (t ++ u). split; [now apply tells_then|now apply lines_app].
Qed.

(** ** Every report *)
Definition fine (a : tc) : Prop := exists out, a = Ok out.
Lemma fine_then a b : fine a -> fine b -> fine (tc_then a b).
Proof. intros (x & ->) (y & ->). cbn [tc_then bind]. unfold fine. eauto. Qed.
Lemma fine_text t f : (exists s, t = Ok s) -> (forall s, fine (f s)) -> fine (tc_text t f).
Proof. intros (s & ->) H. apply H. Qed.
Lemma fine_print l : fine (tc_print mm l).
Proof. apply registry_print_total. Qed.
Lemma fine_nothing : fine (Ok []).
Proof. unfold fine. eauto. Qed.
Lemma tc_escaped_ok s : exists t, tc_make_escaped mm s = Ok t.
Proof. destruct (tc_made mm s) as (out & t & E & _). eauto. Qed.
Lemma tc_escape_ok ss : wf ss -> exists ss' b, tc_escape ss = Ok (ss', b).
Proof.
  intros W. destruct (chain_result _ ss tc_staged tc_long tc_distinct W) as (ss' & b & t & E & _). rewrite tc_escape_chain. eauto.
Qed.
Lemma tc_full_name_ok id : exists t, tc_full_name mn id = Ok t.
Proof.
  unfold tc_full_name, full_name_buffer.
  destruct (append_all_content (match id_type id with [] => [id_name id] | _ => [id_name id; lit " <"; id_type id; lit ">"] end) (new_string mn) (wf_new mn)) as (b & E & W & _).
  rewrite E. cbn [bind]. destruct (tc_escape_ok b W) as (b' & ok & ->). cbn [bind]. eauto.
Qed.
Lemma tc_filter_loop_ok l : forall ss, wf ss -> exists ss', tc_filter_loop l ss = Ok ss' /\ wf ss'.
Proof.
  induction l as [|f l IH]; intros ss W; cbn [tc_filter_loop]; eauto.
  destruct (append_or_truncate_spec ss [lit " " ++ dquote; f; dquote] W) as (ss1 & E & W1 & _). rewrite E. cbn [bind]. auto.
Qed.
Lemma tc_suite_name_ok name filters : exists t, tc_suite_name mm name filters = Ok t.
Proof.
  unfold tc_suite_name. destruct (new_truncated mm name) as (ss1 & b1 & E1 & W1 & C1 & K1). rewrite E1. cbn [bind].
  destruct (tc_filter_loop_ok filters ss1 W1) as (ss & E & W). rewrite E. cbn [bind].
  destruct (tc_escape_ok ss W) as (b' & ok & ->). cbn [bind]. eauto.
Qed.
Lemma fine_captures l : fine (tc_captures mm l).
Proof.
  induction l as [|c l IH]; cbn [tc_captures]; [apply fine_nothing|]. apply fine_then; auto. apply fine_text; [apply tc_escaped_ok|]. intros. apply fine_print.
Qed.
Lemma fine_assertion f captures l what : fine (tc_print_assertion mm f captures l what).
Proof.
  unfold tc_print_assertion. apply fine_then; [apply fine_text; [apply tc_escaped_ok|intros; apply fine_print]|]. apply fine_then; [apply fine_captures|].
  destruct what as [m|macro expected actual]; [apply fine_text; [apply tc_escaped_ok|intros; apply fine_print]|].
  apply fine_then; [apply fine_text; [apply tc_escaped_ok|intros; apply fine_print]|]. destruct actual; [apply fine_print|].
  destruct (_ || _); apply fine_text; try apply tc_escaped_ok; intros; apply fine_print.
Qed.
Lemma fine_message name args : fine (tc_send_message mm name args).
Proof.
  unfold tc_send_message. apply fine_then; [apply fine_print|]. apply fine_then; [|apply fine_print].
  induction args as [|[key [s|f c l w]] args IH]; cbn [tc_args]; [apply fine_nothing| |];
    (apply fine_then; [apply fine_print|]; apply fine_then; auto); [apply fine_print|apply fine_assertion].
Qed.
Theorem report_fine e : fine (tc_report mm mn file duration e).
Proof.
  destruct e; cbn [tc_report]; try apply fine_nothing; try apply fine_message;
    (apply fine_text; [apply tc_full_name_ok || apply tc_suite_name_ok|intros]); try apply fine_message; try apply fine_print.
  destruct (duration _) as [d|]; [|apply fine_message]. apply fine_text; [|intros; apply fine_message].
  destruct (new_truncated 32 d) as (ss & b & ED & _). rewrite ED. cbn [bind]. eauto.
Qed.
Theorem reports_fine l : fine (tc_reports mm mn file duration l).
Proof. induction l as [|e l IH]; cbn [tc_reports]; [apply fine_nothing|]. apply fine_then; auto. apply report_fine. Qed.
End Service.

(** ** Reading a line *)

(** What follows the closing apostrophe of a value, if there is one. *)
Fixpoint after_value (t : text) : option text :=
  match t with
  | [] => None
  | c :: t' =>
    if aeqb c (ascii_of_nat 39) then Some t'
    else if aeqb c "|"%char then match t' with [] => None | _ :: t'' => after_value t'' end
    else after_value t'
  end.
Lemma after_encoded s v t : encoded teamcity_code s v -> after_value (v ++ [ascii_of_nat 39] ++ t) = Some t.
Proof.
  induction 1 as [|c s v N _ IH|c e s v I _ IH]; [reflexivity| |].
  - cbn [app after_value]. destruct (aeqb c (ascii_of_nat 39)) eqn:A.
    { apply aeqb_eq in A. subst c. destruct N. right. now left. }
    destruct (aeqb c "|"%char) eqn:B; [apply aeqb_eq in B; subst c; destruct N; now left|]. exact IH.
  - cbn [app] in IH. rewrite <- app_assoc. unfold teamcity_code in I. cbn [In] in I.
    repeat (destruct I as [I|I]; [injection I as <- <-; exact IH|]). destruct I.
Qed.
(** What follows the letters at the start of a text. *)
Fixpoint after_word (t : text) : text :=
  match t with c :: t' => if letter c then after_word t' else t | [] => [] end.
Lemma after_word_app w t : forallb letter w = true -> after_word (w ++ t) = after_word t.
Proof. induction w as [|c w IH]; auto. cbn [forallb app after_word]. destruct (letter c); [exact IH|discriminate]. Qed.

(** The text is that of a list of attributes up to the closing bracket (with at most [n] attributes). *)
Fixpoint attributes_end (n : nat) (t : text) : bool :=
  match n with
  | 0 => false
  | S n' =>
    match t with
    | c :: t1 =>
      if aeqb c " " then
        match after_word t1 with
        | e :: q :: t2 => aeqb e "=" && aeqb q (ascii_of_nat 39) && match after_value t2 with Some t3 => attributes_end n' t3 | None => false end
        | _ => false
        end
      else seqb t (quote "]" ++ [ascii_of_nat 10])
    | [] => false
    end
  end.
Lemma values_end l u : values_text l u -> forall n, length l < n -> attributes_end n (u ++ quote "]" ++ [ascii_of_nat 10]) = true.
Proof.
  induction 1 as [|key value v l t (K0 & K) E _ IH]; intros n L; (destruct n as [|n]; [cbn [length] in L; lia|]); [reflexivity|].
  cbn [length] in L. rewrite <- !app_assoc. cbn [quote list_ascii_of_string app attributes_end]. change (aeqb " " " ") with true. cbv iota.
  rewrite after_word_app by exact K. cbn [after_word]. change (letter "="%char) with false. cbv iota.
  change (aeqb "=" "=") with true. change (aeqb (ascii_of_nat 39) (ascii_of_nat 39)) with true. cbn [andb].
  change (ascii_of_nat 39 :: t ++ ["]"%char; ascii_of_nat 10]) with ([ascii_of_nat 39] ++ t ++ ["]"%char; ascii_of_nat 10]).
  rewrite (after_encoded value v _ E). apply (IH n). lia.
Qed.

(** More attributes than the text has characters are not needed. *)
Lemma values_length l u : values_text l u -> length l <= length u.
Proof. induction 1; cbn [length]; auto. rewrite !app_length. cbn [length quote list_ascii_of_string]. lia. Qed.

Definition line_ok (t : text) : bool :=
  seqb (firstn 11 t) (quote "##teamCity[") && attributes_end (S (length t)) (after_word (skipn 11 t)).
Lemma values_start l u x : values_text l u -> after_word (u ++ quote "]" ++ x) = u ++ quote "]" ++ x.
Proof. destruct 1; reflexivity. Qed.
Lemma line_reads m t : message_line m t -> line_ok t = true.
Proof.
  intros ((_ & W) & u & V & ->). unfold line_ok.
  change (firstn 11 (quote "##teamCity[" ++ fst m ++ u ++ quote "]" ++ [ascii_of_nat 10])) with (quote "##teamCity[").
  change (skipn 11 (quote "##teamCity[" ++ fst m ++ u ++ quote "]" ++ [ascii_of_nat 10])) with (fst m ++ u ++ quote "]" ++ [ascii_of_nat 10]).
  rewrite after_word_app by exact W. rewrite (values_start _ _ _ V), (values_end _ _ V); [reflexivity|].
  pose proof (values_length _ _ V). rewrite !app_length. unfold text in *. lia.
Qed.

(** A section whose name has an apostrophe. *)
Definition its_section : section_id := mksec (quote "it" ++ [ascii_of_nat 39] ++ quote "s") [] 1.
Lemma section_line mm mn file duration s : exists out, tc_report mm mn file duration (SectionStarted s) = Ok out /\
  List.concat out = quote "##teamCity[blockOpened name=" ++ [ascii_of_nat 39] ++ sec_name s ++ [ascii_of_nat 39] ++ quote " description=" ++
    [ascii_of_nat 39] ++ sec_description s ++ [ascii_of_nat 39] ++ quote "]" ++ [ascii_of_nat 10].
Proof.
  assert (T : tells (tc_report mm mn file duration (SectionStarted s))
    ((quote "##teamCity[" ++ lit "blockOpened") ++ ((lit " " ++ lit "name" ++ lit "=") ++ (apostrophe ++ sec_name s ++ apostrophe) ++
     (lit " " ++ lit "description" ++ lit "=") ++ (apostrophe ++ sec_description s ++ apostrophe) ++ []) ++ (lit "]" ++ line_feed))).
  { cbn [tc_report]. unfold tc_send_message. cbn [tc_args].
    repeat apply tells_then; try apply tells_nothing; (eapply tells_eq; [apply tells_print; repeat constructor|]); cbn [map rendered List.concat]; now rewrite !app_nil_r. }
  destruct T as (out & E & C). exists out. split; auto. rewrite C, app_nil_r, <- !app_assoc. reflexivity.
Qed.
Theorem its_line mm mn file duration out m : tc_report mm mn file duration (SectionStarted its_section) = Ok out -> ~ message_line m (List.concat out).
Proof.
  intros E L. apply line_reads in L. destruct (section_line mm mn file duration its_section) as (out' & E' & C). assert (out' = out) by congruence. subst out'.
  rewrite C in L. vm_compute in L. discriminate.
Qed.

(** ** Lines can be read in one way only *)
Lemma word_unique : forall w w' (x x' : text), forallb letter w = true -> forallb letter w' = true -> after_word x = x -> after_word x' = x' ->
  w ++ x = w' ++ x' -> w = w' /\ x = x'.
Proof.
  intros w w' x x' W W' X X' E. assert (x = x').
  { pose proof (after_word_app w x W) as A. pose proof (after_word_app w' x' W') as A'. rewrite E in A. congruence. }
  subst x'. split; auto. now apply app_inv_tail in E.
Qed.
Lemma value_unique s v s' v' x x' : encoded teamcity_code s v -> encoded teamcity_code s' v' ->
  v ++ [ascii_of_nat 39] ++ x = v' ++ [ascii_of_nat 39] ++ x' -> s = s' /\ x = x'.
Proof.
  intros E E' H. assert (X : x = x').
  { pose proof (after_encoded s v x E) as A. pose proof (after_encoded s' v' x' E') as A'. rewrite H in A. congruence. }
  subst x'. apply app_inv_tail in H. subst v'. split; auto. eapply tc_decode; eauto.
Qed.
Lemma values_unique l u : values_text l u -> forall l' u' x x', values_text l' u' -> u ++ quote "]" ++ x = u' ++ quote "]" ++ x' -> l = l' /\ x = x'.
Proof.
  induction 1 as [|key value v l t (_ & K) E _ IH]; intros l' u' x x' V' H.
  - destruct V' as [|key' value' v' l' t' (_ & K') E' V']; [split; auto; cbn in H; congruence|]. rewrite <- !app_assoc in H. discriminate H.
  - destruct V' as [|key' value' v' l' t' (_ & K') E' V']; [rewrite <- !app_assoc in H; discriminate H|]. rewrite <- !app_assoc in H.
    change (quote " ") with [" "%char] in H. cbn [app] in H. injection H as H.
    apply word_unique in H as (-> & H); auto. change (quote "=") with ["="%char] in H. cbn [app] in H. injection H as H.
    change (ascii_of_nat 39 :: ?a) with ([ascii_of_nat 39] ++ a) in H.
    destruct (value_unique value v value' v' _ _ E E' H) as (-> & H').
    destruct (IH _ _ _ _ V' H') as (-> & ->). auto.
Qed.
Theorem lines_unique l t : message_lines l t -> forall l', message_lines l' t -> l = l'.
Proof.
  assert (G : forall l t, message_lines l t -> forall l' t', message_lines l' t' -> t = t' -> l = l').
  { clear l t. induction 1 as [|m t l u ((_ & W) & v & V & ->) _ IH]; intros l' t' L' E.
    - destruct L' as [|m' t' l' u' (_ & v' & V' & ->) L']; auto. rewrite <- !app_assoc in E. discriminate E.
    - destruct L' as [|m' t' l' u' ((_ & W') & v' & V' & ->) L']; [rewrite <- !app_assoc in E; discriminate E|]. rewrite <- !app_assoc in E.
      apply app_inv_head in E. apply word_unique in E as (N & E); auto; try (eapply values_start; eauto).
      destruct (values_unique _ _ V _ _ _ _ V' E) as (A & B). apply app_inv_head in B. rewrite (IH _ _ L' B). f_equal. destruct m, m'. cbn [fst snd] in *. congruence. }
  intros L l' L'. eapply G; eauto.
Qed.

(** ** Forms *)
Theorem service_messages : exists shown : nat -> text, (forall n, (N.of_nat n < 2 ^ 64)%N -> writes 10 (shown n) (N.of_nat n)) /\
  forall (mm mn : nat) (file : event -> text) (duration : event -> option text) (l : list event),
  let full_name := fun id => full_name_of (id_name id) (id_type id) in
  Forall (telling full_name file duration shown mm mn) l ->
  exists out, tc_reports mm mn file duration l = Ok out /\ message_lines (flat_map (messages_of full_name file duration shown) l) (List.concat out).
Proof.
  exists decimal. split; [intros n R; now apply decimal_short|]. intros mm mn file duration l full_name T.
  destruct (reports_told mm mn file duration l T) as (t & (out & E & C) & L). exists out. split; auto. now rewrite C.
Qed.
Theorem listed_name : forall (mm mn : nat) (file : event -> text) (duration : event -> option text) (id : test_id) (line : nat),
  clean (full id) -> length (full id) <= mn ->
  exists out, tc_report mm mn file duration (TestCaseListed id line) = Ok out /\ List.concat out = full id ++ feed.
Proof.
  intros mm mn file duration id line C L. destruct (full_name_room mn id) as (n & M & E); [exists (full id); split; auto; now apply clean_encoded|].
  assert (n = full id) as -> by (eapply encoded_unique; [apply tc_distinct|exact E|now apply clean_encoded]).
  assert (T : tells (tc_report mm mn file duration (TestCaseListed id line)) (full id ++ feed)).
  { cbn [tc_report]. eapply tells_text; [exact M|]. eapply tells_eq; [apply tells_print; repeat constructor|]. cbn [map rendered List.concat]. now rewrite app_nil_r. }
  exact T.
Qed.
Theorem service_total : forall (mm mn : nat) (file : event -> text) (duration : event -> option text) (l : list event),
  exists out, tc_reports mm mn file duration l = Ok out.
Proof. exact reports_fine. Qed.

(** ** An example *)
Lemma room_encode n s : length (encode teamcity_code s) <= n -> room n s.
Proof. intros L. exists (encode teamcity_code s). split; auto. now apply (proj2 (encoded_encode teamcity_code _ _ tc_distinct)). Qed.
Definition failed_line : text :=
  quote "##teamCity[testFailed name=" ++ apostrophe ++ quote "n" ++ apostrophe ++ quote " message=" ++ apostrophe ++
  quote "f:3|n  CHECK(a < b), got: 3 >= 2" ++ apostrophe ++ quote "]" ++ line_feed.
Lemma nested_telling :
  match run_selected_tests small 5 Full [nested_test] (quote "p") [quote "a*"] (fun _ => Ok true) with
  | Ok (events, _) =>
    Forall (telling (fun id => full_name_of (id_name id) (id_type id)) (fun _ => quote "f") (fun _ => Some (quote "12")) decimal 100 20) events /\
    length events = 13 /\
    match tc_reports 100 20 (fun _ => quote "f") (fun _ => Some (quote "12")) events with
    | Ok out => exists a b, List.concat out = a ++ failed_line ++ b
    | Err _ => False
    end
  | Err _ => False
  end.
Proof.
  destruct (run_selected_tests small 5 Full [nested_test] (quote "p") [quote "a*"] (fun _ => Ok true)) as [[l b]|] eqn:E; [|vm_compute in E; discriminate E].
  vm_compute in E. injection E as <- <-. split; [|split; [reflexivity|]].
  - repeat (apply Forall_cons || apply Forall_nil); unfold telling, telling_details, telling_payload;
      repeat match goal with |- _ /\ _ => split end;
      match goal with
      | |- room _ _ => apply room_encode; apply Nat.leb_le; vm_compute; reflexivity
      | |- in_range _ => unfold in_range; apply N.ltb_lt; vm_compute; reflexivity
      | |- clean _ => apply clean_lit; vm_compute; reflexivity
      | |- _ <= _ => apply Nat.leb_le; vm_compute; reflexivity
      | |- Forall _ [] => apply Forall_nil
      | |- True => exact I
      end.
  - match goal with |- match ?x with _ => _ end => destruct x as [out|] eqn:E; [|vm_compute in E; discriminate E] end. vm_compute in E. injection E as <-.
    match goal with |- exists a b, ?x = _ => let k := constr:(match Base.find x failed_line with Some k => k | None => 0 end) in exists (firstn k x), (skipn (k + length failed_line) x) end. vm_compute. reflexivity.
Qed.
