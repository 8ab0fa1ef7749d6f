(** The XML reporter prints a document that says what happened (C42). *)
From Verif.Spec Require Import TextSpec FilterSpec EscapeSpec Events NumberSpec XmlSpec.
From Verif.Model Require Import Base Vector StringUtil Integer Print Filter Run Reporters.
From Verif.Proofs Require Import Lists VectorProofs AppendProofs IntegerProofs PrintProofs EscapeProofs.
From Coq Require Import Lia ZifyBool ZifyNat ZifyN.
Local Open Scope list_scope.

Section Xml.
Variables mm mn : nat.
Variable version : str.
Variable file : event -> str.
Variable duration : event -> option str.

Definition full (id : test_id) : text := full_name_of (id_name id) (id_type id).

(** ** What is printed *)
Definition emits (a : xml) (l l' : nat) (t : text) : Prop := exists out, a l = Ok (l', out) /\ List.concat out = t.

Lemma emits_nothing l : emits nothing l l [].
Proof. exists []. auto. Qed.
Lemma emits_then a b l l1 l2 t1 t2 : emits a l l1 t1 -> emits b l1 l2 t2 -> emits (andthen a b) l l2 (t1 ++ t2).
Proof.
  intros (o1 & E1 & C1) (o2 & E2 & C2). exists (o1 ++ o2). unfold andthen. rewrite E1. cbn [bind]. rewrite E2. cbn [bind].
  split; auto. rewrite concat_app. congruence.
Qed.
Lemma emits_texts texts l : emits (Reporters.prints_texts mm texts) l l (List.concat texts).
Proof.
  destruct (registry_print_texts mm texts) as (chunks & E & C & _). exists chunks. unfold Reporters.prints_texts. rewrite E. cbn [bind]. auto.
Qed.
Lemma emits_eq a l l' t t' : emits a l l' t -> t = t' -> emits a l l' t'.
Proof. now intros H <-. Qed.
Lemma emits_with t s f l l' u : t = Ok s -> emits (f s) l l' u -> emits (with_text t f) l l' u.
Proof. intros -> (out & E & C). exists out. unfold with_text. cbn [bind]. auto. Qed.

Definition attrs (args : list attribute) : text :=
  flat_map (fun x : text * text => quote " " ++ fst x ++ quote "=" ++ [ascii_of_nat 34] ++ snd x ++ [ascii_of_nat 34]) args.

Lemma emits_attributes args l : emits (xml_attributes mm args) l l (attrs args).
Proof.
  induction args as [|[key value] args IH]; [apply emits_nothing|]. cbn [xml_attributes]. eapply emits_eq.
  { eapply emits_then; [apply emits_texts|apply IH]. }
  unfold attrs. cbn [flat_map fst snd List.concat]. rewrite app_nil_r, <- !app_assoc. reflexivity.
Qed.

Lemma emits_open name args l :
  emits (xml_open mm name args) l (S l) (get_indent l ++ quote "<" ++ name ++ attrs args ++ quote ">" ++ [ascii_of_nat 10]).
Proof.
  unfold xml_open. eapply emits_eq.
  { eapply emits_then; [|eapply emits_then; [apply emits_attributes|eapply emits_then; [apply emits_texts|]]].
    - exact (emits_texts _ l).
    - exists []. split; reflexivity. }
  cbn [List.concat]. rewrite !app_nil_r, <- !app_assoc. reflexivity.
Qed.
Lemma emits_node name args l :
  emits (xml_node mm name args) l l (get_indent l ++ quote "<" ++ name ++ attrs args ++ quote "/>" ++ [ascii_of_nat 10]).
Proof.
  unfold xml_node. eapply emits_eq.
  { eapply emits_then; [|eapply emits_then; [apply emits_attributes|apply emits_texts]]. exact (emits_texts _ l). }
  cbn [List.concat]. rewrite !app_nil_r, <- !app_assoc. reflexivity.
Qed.
Lemma emits_close name l :
  emits (xml_close mm name) (S l) l (get_indent l ++ quote "</" ++ name ++ quote ">" ++ [ascii_of_nat 10]).
Proof.
  destruct (emits_texts [get_indent l; lit "</"; name; lit ">" ++ line_feed] l) as (out & E & C).
  exists out. split.
  - unfold xml_close. assert (csub (S l) 1 = Ok l) as -> by (unfold csub; cbn; now rewrite Nat.sub_0_r). exact E.
  - rewrite C. cbn [List.concat]. rewrite app_nil_r. reflexivity.
Qed.
Lemma emits_print data l : emits (xml_print mm data) l l (get_indent l ++ data ++ [ascii_of_nat 10]).
Proof.
  destruct (emits_texts [get_indent l; data; line_feed] l) as (out & E & C). exists out. split; [exact E|].
  rewrite C. cbn [List.concat]. now rewrite app_nil_r.
Qed.

(** ** Content *)
Lemma content_app l1 t1 l2 t2 : content_text l1 t1 -> content_text l2 t2 -> content_text (l1 ++ l2) (t1 ++ t2).
Proof.
  intros H. revert l2 t2. induction H; intros l2 t2 K; cbn [app]; auto.
  - now apply a_blank; auto.
  - rewrite <- app_assoc. apply some_data; auto.
  - rewrite <- !app_assoc. apply empty_element; auto.
  - rewrite <- !app_assoc. apply an_element; auto.
Qed.
Lemma content_indent k l t : content_text l t -> content_text l (get_indent k ++ t).
Proof.
  intros H. unfold get_indent. induction (Nat.min 16 (2 * k)); auto. cbn [repeat app]. apply a_blank; auto. now left.
Qed.
Lemma content_feed l t : content_text l t -> content_text l (t ++ [ascii_of_nat 10]).
Proof.
  intros H. rewrite <- (app_nil_r l). apply content_app; auto. apply a_blank; [now right|apply no_content].
Qed.
Lemma content_feed_front l t : content_text l t -> content_text l ([ascii_of_nat 10] ++ t).
Proof. intros H. apply a_blank; auto. now right. Qed.

(** The printed data is the data. *)
Lemma content_data s e : encoded xml_entities s e -> content_text (data s) e.
Proof.
  intros H. destruct s as [|c s]; cbn [data].
  - inversion H. apply no_content.
  - rewrite <- (app_nil_r e). apply some_data; [discriminate|auto|apply no_content].
Qed.

(** An opening tag, a content and a closing tag. *)
Lemma content_element name l al a content c k :
  xml_name name -> attributes_text l a -> al = a -> content_text content c ->
  content_text [Element name l content]
    ((get_indent k ++ quote "<" ++ name ++ al ++ quote ">" ++ [ascii_of_nat 10]) ++ c ++
     (get_indent k ++ quote "</" ++ name ++ quote ">" ++ [ascii_of_nat 10])).
Proof.
  intros N A -> C.
  replace ((get_indent k ++ quote "<" ++ name ++ a ++ quote ">" ++ [ascii_of_nat 10]) ++ c ++ get_indent k ++ quote "</" ++ name ++ quote ">" ++ [ascii_of_nat 10])
    with (get_indent k ++ ((quote "<" ++ name ++ a ++ quote ">" ++ ([ascii_of_nat 10] ++ (c ++ get_indent k ++ [])) ++ quote "</" ++ name ++ quote ">" ++ []) ++ [ascii_of_nat 10]))
    by (rewrite !app_nil_r, <- !app_assoc; reflexivity).
  apply content_indent, content_feed. apply an_element; auto; [|apply no_content].
  apply content_feed_front. rewrite <- (app_nil_r content). apply content_app; auto. apply content_indent, no_content.
Qed.
Lemma content_empty name l a k : xml_name name -> attributes_text l a ->
  content_text [Element name l []] (get_indent k ++ quote "<" ++ name ++ a ++ quote "/>" ++ [ascii_of_nat 10]).
Proof.
  intros N A. replace (get_indent k ++ quote "<" ++ name ++ a ++ quote "/>" ++ [ascii_of_nat 10])
    with (get_indent k ++ ((quote "<" ++ name ++ a ++ quote "/>" ++ []) ++ [ascii_of_nat 10])) by (rewrite app_nil_r, <- !app_assoc; reflexivity).
  apply content_indent, content_feed, empty_element; auto. apply no_content.
Qed.
Lemma content_printed s e k : encoded xml_entities s e -> content_text (data s) (get_indent k ++ e ++ [ascii_of_nat 10]).
Proof. intros H. apply content_indent, content_feed, content_data, H. Qed.

(** Attributes: keys are names, values are encoded. *)
Definition pairs (l : list (text * text)) (args : list attribute) : Prop :=
  Forall2 (fun x y => fst x = fst y /\ xml_name (fst x) /\ encoded xml_entities (snd x) (snd y)) l args.
Lemma attributes_pairs l args : pairs l args -> attributes_text l (attrs args).
Proof.
  induction 1 as [|[k v] [k' v'] l args (E & N & C) _ IH]; [apply no_attribute|]. cbn [fst snd] in *. subst k'.
  unfold attrs. cbn [flat_map fst snd]. rewrite <- !app_assoc. apply an_attribute; auto.
Qed.

(** ** Escaped texts and numbers *)
Lemma escaped_fits s : fits mm s -> exists e, xml_make_escaped mm s = Ok e /\ encoded xml_entities s e.
Proof. intros (t & E & L). exists t. split; auto. now apply xml_made_fits. Qed.

Lemma harmless_encoded s : harmless s -> encoded xml_entities s s.
Proof.
  induction s as [|c s IH]; intros H; [apply enc_nil|]. apply enc_plain; [apply H; now left|]. apply IH. intros x I. apply H. now right.
Qed.
Lemma harmless_app a b : harmless a -> harmless b -> harmless (a ++ b).
Proof. intros A B c I. apply in_app_iff in I as [I|I]; auto. Qed.

Lemma make_string_short s : length s <= 32 -> xml_make_string s = Ok s.
Proof.
  intros L. unfold xml_make_string. destruct (new_truncated 32 s) as (ss & b & E & _ & _ & K). rewrite E. cbn [bind].
  rewrite K, fit_id; auto.
Qed.

Lemma read_harmless : forall s acc x, read 10 acc s = Some x -> harmless s.
Proof.
  induction s as [|c s IH]; intros acc x H d I; [destruct I|]. cbn [read] in H. destruct (digit_value c) eqn:D; [|discriminate].
  destruct (n <? 10)%N eqn:L; [|discriminate]. destruct I as [<-|I]; [|eapply IH; eauto].
  intros S. cbn -[ascii_of_nat] in S. repeat (destruct S as [<-|S]; [vm_compute in D; discriminate D|]). destruct S.
Qed.
Lemma decimal_short n : in_range n -> short (decimal n) /\ decimal n <> [] /\ writes 10 (decimal n) (N.of_nat n).
Proof.
  intros R. unfold in_range in R. pose proof (to_chars_uint_writes 10 (N.of_nat n) ltac:(lia) ltac:(lia) R) as W.
  pose proof (to_chars_uint_length (N.of_nat n) R) as L. fold (decimal n) in W, L. pose proof W as (W1 & W2 & _). split; [split|split; auto].
  - eapply read_harmless; eauto.
  - unfold text, str in *. lia.
Qed.
Lemma decimal_string n : in_range n -> xml_make_string (decimal n) = Ok (decimal n) /\ encoded xml_entities (decimal n) (decimal n).
Proof.
  intros R. destruct (decimal_short n R) as ((H & L) & _). split; [now apply make_string_short|now apply harmless_encoded].
Qed.

(** ** Names and filters *)

Lemma fits_length n s : fits n s -> length s <= n.
Proof. intros (t & E & L). pose proof (encoded_longer _ _ _ xml_long E). lia. Qed.

Lemma full_name_content id : length (full id) <= mn ->
  exists ss, full_name_buffer mn id = Ok ss /\ wf ss /\ vcap ss = mn /\ vcontent ss = full id.
Proof.
  intros L. set (parts := match id_type id with [] => [id_name id] | _ => [id_name id; lit " <"; id_type id; lit ">"] end).
  assert (E : List.concat parts = full id).
  { unfold parts, full, full_name_of. destruct (id_type id); cbn [List.concat]; [apply app_nil_r|]. now rewrite app_nil_r. }
  destruct (append_all_content parts (new_string mn) (wf_new mn)) as (b & Eb & W & C & K).
  rewrite vcontent_new, vcap_new in *. cbn [app] in *. rewrite E in *. exists b. split; [|split; [auto|split; auto]].
  - unfold full_name_buffer. fold parts. now rewrite Eb.
  - rewrite K. now apply firstn_all2.
Qed.
Lemma full_name_fits id : fits mn (full id) -> exists e, xml_make_full_name mn id = Ok e /\ encoded xml_entities (full id) e.
Proof.
  intros F. destruct (full_name_content id (fits_length _ _ F)) as (ss & E & W & C & K). destruct F as (t & Et & L).
  destruct (xml_faithful ss t W) as (ss' & E' & K'); [congruence|lia|]. exists t. unfold xml_make_full_name. rewrite E. cbn [bind].
  rewrite E'. cbn [bind]. rewrite K'. auto.
Qed.

Definition filters_from (first : bool) (l : list text) : text :=
  if first then filters_text l else flat_map (fun f : text => quote " " ++ dquote ++ f ++ dquote) l.
Definition before_filter (first : bool) : str := if first then dquote else lit " " ++ dquote.
Lemma filters_from_cons first f l :
  filters_from first (f :: l) = before_filter first ++ f ++ dquote ++ filters_from false l.
Proof.
  unfold before_filter.
  destruct first; [|cbn [filters_from flat_map]; now rewrite <- !app_assoc].
  unfold filters_from. revert f. induction l as [|g l IH]; intros f; [reflexivity|].
  change (filters_text (f :: g :: l)) with (dquote ++ f ++ dquote ++ quote " " ++ filters_text (g :: l)). rewrite IH.
  cbn [flat_map]. now rewrite <- !app_assoc.
Qed.
Lemma filter_loop_content l : forall first ss, wf ss -> length (vcontent ss ++ filters_from first l) <= vcap ss ->
  exists ss', xml_filter_loop first l ss = Ok ss' /\ wf ss' /\ vcap ss' = vcap ss /\ vcontent ss' = vcontent ss ++ filters_from first l.
Proof.
  induction l as [|f l IH]; intros first ss W L.
  - exists ss. destruct first; cbn [filters_from filters_text flat_map]; rewrite app_nil_r; auto.
  - rewrite filters_from_cons in L. rewrite filters_from_cons.
    change (xml_filter_loop first (f :: l) ss) with (do (ss1, _) <- append_or_truncate ss [before_filter first; f; dquote] ;; xml_filter_loop false l ss1).
    set (p := before_filter first) in *.
    destruct (append_or_truncate_spec ss [p; f; dquote] W) as (ss1 & E1 & W1 & C1 & K1).
    cbn [List.concat] in K1, E1. rewrite app_nil_r in K1, E1.
    assert (LL : length (vcontent ss ++ p ++ f ++ dquote) <=? vcap ss = true).
    { apply Nat.leb_le. unfold text, str in *. rewrite !app_length in *. cbn [length] in *. lia. }
    rewrite LL in K1. rewrite E1. cbn [bind].
    destruct (IH false ss1 W1) as (ss' & E' & W' & C' & K').
    { rewrite K1, C1. rewrite <- !app_assoc. exact L. }
    exists ss'. rewrite E'. split; [auto|]. split; [auto|]. split; [congruence|]. rewrite K', K1. now rewrite <- !app_assoc.
Qed.
Lemma filters_fit filters : fits mm (filters_text filters) ->
  exists e, xml_make_filters mm filters = Ok e /\ encoded xml_entities (filters_text filters) e.
Proof.
  intros F. destruct (filter_loop_content filters true (new_string mm) (wf_new mm)) as (ss & E & W & C & K).
  { rewrite vcontent_new, vcap_new. cbn [app filters_from]. now apply fits_length. }
  rewrite vcontent_new, vcap_new in *. cbn [app filters_from] in K. destruct F as (t & Et & L).
  destruct (xml_faithful ss t W) as (ss' & E' & K'); [congruence|lia|]. exists t. unfold xml_make_filters. rewrite E. cbn [bind].
  rewrite E'. cbn [bind]. rewrite K'. auto.
Qed.

(** ** Functions that print content and keep the level *)
Definition says (a : xml) (k : nat) (l : list node) : Prop := exists t, emits a k k t /\ content_text l t.

Lemma says_nothing k : says nothing k [].
Proof. exists []. split; [apply emits_nothing|apply no_content]. Qed.
Lemma says_then a b k l1 l2 : says a k l1 -> says b k l2 -> says (andthen a b) k (l1 ++ l2).
Proof. intros (t1 & E1 & C1) (t2 & E2 & C2). exists (t1 ++ t2). split; [eapply emits_then; eauto|now apply content_app]. Qed.
Lemma says_print s e k : encoded xml_entities s e -> says (xml_print mm e) k (data s).
Proof. intros H. exists (get_indent k ++ e ++ [ascii_of_nat 10]). split; [apply emits_print|now apply content_printed]. Qed.
Lemma says_escaped s k : fits mm s -> says (with_text (xml_make_escaped mm s) (xml_print mm)) k (data s).
Proof.
  intros F. destruct (escaped_fits s F) as (e & E & C). destruct (says_print s e k C) as (t & T & K). exists t. split; auto.
  eapply emits_with; eauto.
Qed.
Lemma says_node name l args k : xml_name name -> pairs l args -> says (xml_node mm name args) k [Element name l []].
Proof. intros N P. eexists. split; [apply emits_node|apply content_empty; auto; now apply attributes_pairs]. Qed.

Definition opens (a : xml) (name : text) (l : list (text * text)) (k : nat) : Prop :=
  exists args, pairs l args /\ emits a k (S k) (get_indent k ++ quote "<" ++ name ++ attrs args ++ quote ">" ++ [ascii_of_nat 10]).
Lemma opens_open name l args k : pairs l args -> opens (xml_open mm name args) name l k.
Proof. intros P. exists args. split; auto. apply emits_open. Qed.

Lemma says_element a name l body content k : xml_name name -> opens a name l k -> says body (S k) content ->
  says (andthen a (andthen body (xml_close mm name))) k [Element name l content].
Proof.
  intros N (args & P & E) (t & B & C). eexists. split.
  - eapply emits_then; [exact E|]. eapply emits_then; [exact B|apply emits_close].
  - eapply content_element; eauto. now apply attributes_pairs.
Qed.
Lemma andthen_assoc a b c k : andthen (andthen a b) c k = andthen a (andthen b c) k.
Proof.
  unfold andthen. destruct (a k) as [[k1 o1]|]; cbn [bind]; auto. destruct (b k1) as [[k2 o2]|]; cbn [bind]; auto.
  destruct (c k2) as [[k3 o3]|]; cbn [bind]; auto. now rewrite app_assoc.
Qed.
Lemma says_ext a b k l : (forall x, a x = b x) -> says a k l -> says b k l.
Proof. intros H (t & (out & E & C) & K). exists t. split; auto. exists out. rewrite <- H. auto. Qed.
Lemma andthen_ext a b c k : (forall x, b x = c x) -> andthen a b k = andthen a c k.
Proof. intros H. unfold andthen. destruct (a k) as [[k1 o1]|]; cbn [bind]; auto. now rewrite H. Qed.

(** Computed arguments. *)
Lemma opens_with t s f name l k : t = Ok s -> opens (f s) name l k -> opens (with_text t f) name l k.
Proof. intros E (args & P & H). exists args. split; auto. eapply emits_with; eauto. Qed.
Lemma says_with t s f l k : t = Ok s -> says (f s) k l -> says (with_text t f) k l.
Proof. intros E (u & P & H). exists u. split; auto. eapply emits_with; eauto. Qed.
Lemma says_number n f l k : in_range n -> says (f (decimal n)) k l -> says (number n f) k l.
Proof. intros R H. eapply says_with; eauto. apply decimal_string, R. Qed.
Lemma opens_number n f name l k : in_range n -> opens (f (decimal n)) name l k -> opens (number n f) name l k.
Proof. intros R H. eapply opens_with; eauto. apply decimal_string, R. Qed.
Lemma says_minus2 a b c d f l k : in_range a -> d + b + c = a -> says (f (decimal d)) k l -> says (minus2 a b c f) k l.
Proof.
  intros R E (t & (out & E1 & C1) & H). exists t. split; auto. exists out. split; auto. unfold minus2.
  assert (csub a b = Ok (d + c)) as -> by (unfold csub; destruct (Nat.leb_spec b a); [f_equal; lia|lia]). cbn [bind].
  assert (csub (d + c) c = Ok d) as -> by (unfold csub; destruct (Nat.leb_spec c (d + c)); [f_equal; lia|lia]). cbn [bind].
  assert (Rd : in_range d) by (unfold in_range in *; lia).
  unfold with_text. rewrite (proj1 (decimal_string d Rd)). exact E1.
Qed.

Lemma says_duration e f l k : readable_duration duration e ->
  (forall d, Forall2 (fun x y => fst x = fst y /\ xml_name (fst x) /\ encoded xml_entities (snd x) (snd y)) (timed duration e) d -> says (f d) k l) ->
  says (duration_attribute duration e f) k l.
Proof.
  unfold readable_duration, duration_attribute, timed. destruct (duration e) as [d|]; intros R H.
  - destruct R as [R1 R2]. eapply says_with; [now apply make_string_short|]. apply H. apply Forall2_cons; [|apply Forall2_nil].
    cbn [fst snd]. split; [reflexivity|]. split; [vm_compute; auto|]. now apply harmless_encoded.
  - apply H. apply Forall2_nil.
Qed.

(** ** Events *)
Ltac pair1 := apply Forall2_cons; [cbn [fst snd]; split; [reflexivity|split; [solve [vm_compute; auto]|]]|].
Ltac literal := apply harmless_encoded; let c := fresh in let I := fresh in let S := fresh in
  intros c I S; vm_compute in I; cbn -[ascii_of_nat] in S;
  repeat (destruct I as [<-|I]; [exfalso; repeat (destruct S as [S|S]; [discriminate S|]); destruct S|]); destruct I.

Lemma says_info c k : fits mm c ->
  says (andthen (xml_open mm (lit "Info") []) (andthen (with_text (xml_make_escaped mm c) (xml_print mm)) (xml_close mm (lit "Info")))) k [leaf (quote "Info") c].
Proof.
  intros F. apply says_element; [vm_compute; auto|apply opens_open; apply Forall2_nil|now apply says_escaped].
Qed.
Lemma says_captures captures k : Forall (fits mm) captures -> says (xml_captures mm captures) k (infos captures).
Proof.
  induction 1 as [|c captures F _ IH]; [apply says_nothing|]. cbn [xml_captures].
  change (infos (c :: captures)) with ([leaf (quote "Info") c] ++ infos captures).
  eapply says_ext; [|apply says_then; [now apply says_info|apply IH]].
  intros x. rewrite andthen_assoc. apply andthen_ext. intros y. apply andthen_assoc.
Qed.

Lemma says_assertion e captures l what success k :
  Forall (fits mm) captures -> fits mm (file e) -> in_range (loc_line l) -> readable_payload mm what ->
  says (xml_report_assertion mm file e captures l what success) k (assertion_nodes file decimal e captures l what success).
Proof.
  intros F Fi R P. unfold xml_report_assertion, assertion_nodes. apply says_then; [now apply says_captures|].
  destruct (escaped_fits _ Fi) as (fe & Ef & Cf). destruct (decimal_string _ R) as (Dn & Cn). destruct what as [m|type expected actual].
  - assert (N : xml_name (if success then lit "Success" else lit "Failure")) by (destruct success; vm_compute; auto).
    replace (if success then quote "Success" else quote "Failure") with (if success then lit "Success" else lit "Failure") by now destruct success.
    apply says_element; auto; [|now apply says_escaped].
    eapply opens_with; [exact Ef|]. eapply opens_with; [exact Dn|]. apply opens_open. pair1; [exact Cf|]. pair1; [exact Cn|]. apply Forall2_nil.
  - destruct P as (P1 & P2 & P3).
    set (B1 := andthen (xml_open mm (lit "Original") []) (andthen (with_text (xml_make_escaped mm expected) (xml_print mm)) (xml_close mm (lit "Original")))).
    set (B2 := andthen (xml_open mm (lit "Expanded") []) (andthen (match actual with [] => with_text (xml_make_escaped mm expected) (xml_print mm) | _ => with_text (xml_make_escaped mm actual) (xml_print mm) end) (xml_close mm (lit "Expanded")))).
    assert (S1 : says B1 (S k) [leaf (quote "Original") expected]).
    { apply says_element; [vm_compute; auto|apply opens_open; apply Forall2_nil|now apply says_escaped]. }
    assert (S2 : says B2 (S k) [leaf (quote "Expanded") (match actual with [] => expected | _ => actual end)]).
    { apply says_element; [vm_compute; auto|apply opens_open; apply Forall2_nil|]. destruct actual; now apply says_escaped. }
    eapply says_ext; [|eapply says_element with (name := quote "Expression") (body := andthen B1 B2)].
    + intros x. apply andthen_ext. intros y. rewrite andthen_assoc. unfold B1. rewrite andthen_assoc. apply andthen_ext. intros z.
      rewrite andthen_assoc. apply andthen_ext. intros z1. apply andthen_ext. intros z2. unfold B2. rewrite andthen_assoc.
      apply andthen_ext. intros z3. apply andthen_assoc.
    + vm_compute. auto.
    + eapply opens_with; [exact Ef|]. eapply opens_with; [exact Dn|]. apply opens_open.
      pair1; [destruct success; literal|]. pair1; [now apply harmless_encoded|]. pair1; [exact Cf|]. pair1; [exact Cn|]. apply Forall2_nil.
    + apply (says_then _ _ _ _ _ S1 S2).
Qed.

Notation readable := (readable full id_tags id_fixture file duration mm mn).
Notation told := (told file duration decimal).
Notation report := (xml_report mm mn version file duration).
Notation reports := (xml_reports mm mn version file duration).

Lemma says_plain e k : plain_event e -> readable e -> says (report e) k (plain_nodes file decimal e).
Proof.
  destruct e; try (intros []; fail); intros _ R; cbn [XmlSpec.readable] in R; cbn [xml_report plain_nodes].
  - destruct R as (R1 & R2 & R3 & R4). now apply says_assertion.
  - destruct R as (R1 & R2 & R3 & R4). now apply says_assertion.
  - destruct R as (R1 & R2 & R3). destruct (escaped_fits _ R1) as (fe & Ef & Cf). destruct (decimal_string _ R2) as (Dn & Cn).
    apply says_element; [vm_compute; auto| |now apply says_print, harmless_encoded].
    eapply opens_with; [exact Ef|]. apply opens_number; auto. apply opens_open. pair1; [exact Cf|]. pair1; [exact Cn|]. apply Forall2_nil.
  - apply says_nothing.
Qed.

Lemma reports_app a b k : reports (a ++ b) k = andthen (reports a) (reports b) k.
Proof.
  revert k. induction a as [|e a IH]; intros k; cbn [app xml_reports].
  - unfold andthen, nothing. cbn [bind]. destruct (reports b k) as [[? ?]|]; reflexivity.
  - rewrite andthen_assoc. apply andthen_ext. apply IH.
Qed.

Lemma says_counts c ok (skipped : bool) e k : in_range (n_all c) -> in_range (n_failed c) -> in_range (n_allowed c) -> readable_duration duration e ->
  ok + n_failed c + n_allowed c = n_all c ->
  says (minus2 (n_all c) (n_failed c) (n_allowed c) (fun s =>
    number (n_failed c) (fun f => number (n_allowed c) (fun a =>
    duration_attribute duration e (fun d =>
    xml_node mm (lit "OverallResults")
      ([(lit "successes", s); (lit "failures", f); (lit "expectedFailures", a);
        (lit "skipped", if skipped then lit "true" else lit "false")] ++ d)))))) k
   [Element (quote "OverallResults")
                   ([(quote "successes", decimal ok); (quote "failures", decimal (n_failed c));
                     (quote "expectedFailures", decimal (n_allowed c)); (quote "skipped", yes_no skipped)] ++
                    timed duration e) []].
Proof.
  intros R1 R2 R3 D E. eapply says_minus2; eauto. apply says_number; auto. apply says_number; auto. apply says_duration; auto.
  intros d F. apply says_node; [vm_compute; auto|]. apply Forall2_app; [|exact F].
  pair1; [apply decimal_string; unfold in_range in *; lia|]. pair1; [now apply decimal_string|]. pair1; [now apply decimal_string|].
  pair1; [destruct skipped; literal|]. apply Forall2_nil.
Qed.

Theorem says_told l n : told l n -> forall k, Forall readable l -> says (reports l) k n.
Proof.
  induction 1 as [|e l n P _ IH|s a na skipped c ok b nb _ IHa _ IHb E]; intros k F.
  - apply says_nothing.
  - inversion F; subst. cbn [xml_reports]. apply says_then; auto. now apply says_plain.
  - inversion F as [|x y R1 F1]; subst. apply Forall_app in F1 as [Fa F1]. inversion F1 as [|x y R2 Fb]; subst.
    cbn [XmlSpec.readable] in R1, R2. destruct R1 as (R11 & R12 & R13). destruct R2 as (R21 & R22 & R23 & R24).
    set (el := Element _ _ _). change (el :: nb) with ([el] ++ nb). subst el.
    destruct (escaped_fits _ R11) as (ne & En & Cn). destruct (escaped_fits _ R12) as (fe & Ef & Cf).
    eapply says_ext; [|apply says_then; [eapply says_element with (name := lit "Section");
      [vm_compute; auto| |apply says_then; [apply (IHa (S k) Fa)|eapply (says_counts c ok skipped (SectionEnded s skipped c)); eauto]]|apply (IHb k Fb)]].
    + intros x. cbn [xml_reports]. rewrite andthen_assoc. apply andthen_ext. intros y. rewrite reports_app, !andthen_assoc. apply andthen_ext. intros z.
      cbn [xml_reports xml_report]. rewrite !andthen_assoc. reflexivity.
    + eapply opens_with; [exact En|]. eapply opens_with; [exact Ef|]. apply opens_number; auto. apply opens_open.
      pair1; [exact Cn|]. pair1; [exact Cf|]. pair1; [now apply decimal_string|]. apply Forall2_nil.
Qed.

Theorem says_cases l n : told_cases full id_tags file duration decimal l n -> forall k, Forall readable l -> says (reports l) k n.
Proof.
  induction 1 as [|id line a na c s b nb Ta _ IHb]; intros k F.
  - apply says_nothing.
  - inversion F as [|x y R1 F1]; subst. apply Forall_app in F1 as [Fa F1]. inversion F1 as [|x y R2 Fb]; subst.
    cbn [XmlSpec.readable] in R1, R2. destruct R1 as (R11 & R12 & R13 & R14).
    set (el := Element _ _ _). change (el :: nb) with ([el] ++ nb). subst el.
    destruct (full_name_fits _ R11) as (ne & En & Cn). destruct (escaped_fits _ R12) as (te & Et & Ct). destruct (escaped_fits _ R13) as (fe & Ef & Cf).
    eapply says_ext; [|apply says_then; [eapply says_element with (name := lit "TestCase");
      [vm_compute; auto| |apply says_then; [apply (says_told a na Ta (S k) Fa)|apply (says_duration (TestCaseEnded id line c s)); [exact R2|intros d Fd; apply says_node; [|]]]]|apply (IHb k Fb)]].
    + intros x. cbn [xml_reports]. rewrite andthen_assoc. apply andthen_ext. intros y. rewrite reports_app, !andthen_assoc. apply andthen_ext. intros z.
      cbn [xml_reports xml_report]. rewrite !andthen_assoc. reflexivity.
    + eapply opens_with; [exact En|]. eapply opens_with; [exact Et|]. eapply opens_with; [exact Ef|]. apply opens_number; auto. apply opens_open.
      pair1; [exact Cn|]. pair1; [exact Ct|]. pair1; [exact Cf|]. pair1; [now apply decimal_string|]. apply Forall2_nil.
    + vm_compute; auto.
    + apply Forall2_app; [|exact Fd]. pair1; [destruct s; literal|]. pair1; [destruct s; literal|]. apply Forall2_nil.
Qed.

Lemma says_document prolog_feeds a k root l :
  (exists u, prolog_feeds = declaration ++ u /\ content_text [] u) ->
  (forall x, l x = andthen (xml_print mm prolog_feeds) a x) -> says a 0 [root] -> k = 0 ->
  exists out, l k = Ok (k, out) /\ document root (List.concat out).
Proof.
  intros (u & -> & U) H (t & E & C) ->. destruct (emits_then _ _ _ _ _ _ _ (emits_print (declaration ++ u) 0) E) as (out & Eo & Co).
  exists out. rewrite H. split; auto. exists (u ++ [ascii_of_nat 10] ++ t). split.
  - rewrite Co. cbn [get_indent repeat Nat.min Nat.mul app]. rewrite <- !app_assoc. reflexivity.
  - apply (content_app [] u [root]); auto. now apply content_feed_front.
Qed.

Lemma says_totals name ok failures allowed skipped all k : xml_name name -> in_range all -> in_range failures -> in_range allowed -> in_range skipped ->
  ok + failures + allowed = all ->
  says (minus2 all failures allowed (fun s => number failures (fun f => number allowed (fun a => number skipped (fun k =>
    xml_node mm name [(lit "successes", s); (lit "failures", f); (lit "expectedFailures", a); (lit "skips", k)]))))) k
   [Element name [(quote "successes", decimal ok); (quote "failures", decimal failures);
                  (quote "expectedFailures", decimal allowed); (quote "skips", decimal skipped)] []].
Proof.
  intros N R1 R2 R3 R4 E. eapply says_minus2; eauto. do 3 (apply says_number; auto). apply says_node; auto.
  pair1; [apply decimal_string; unfold in_range in *; lia|]. do 3 (pair1; [now apply decimal_string|]). apply Forall2_nil.
Qed.

Theorem run_document l root : told_run full id_tags file duration decimal version l root -> Forall readable l -> harmless version ->
  exists out, reports l 0 = Ok (0, out) /\ document root (List.concat out).
Proof.
  intros [name filters cases n name' filters' run failed allowed skipped c success ok okc T E1 E2] F V.
  inversion F as [|x y R1 F1]; subst. apply Forall_app in F1 as [Fa F1]. inversion F1 as [|x y R2 _]; subst.
  cbn [XmlSpec.readable] in R1, R2. destruct R1 as (R11 & R12). destruct R2 as (R21 & R22 & R23 & R24 & R25 & R26 & R27).
  destruct (escaped_fits _ R11) as (ne & En & Cn). destruct (filters_fit _ R12) as (fe & Ef & Cf).
  assert (N1 : xml_name (lit "OverallResults")) by (vm_compute; auto). assert (N2 : xml_name (lit "OverallResultsCases")) by (vm_compute; auto).
  pose proof (says_then _ _ _ _ _ (says_totals (lit "OverallResults") ok (n_failed c) (n_allowed c) skipped (n_all c) 1 N1 R25 R26 R27 R24 E1)
                                  (says_totals (lit "OverallResultsCases") okc failed allowed skipped (okc + failed + allowed) 1 N2 R21 R22 R23 R24 eq_refl)) as HT.
  eapply (says_document (xml_prolog ++ line_feed)); [| | |reflexivity].
  - exists [ascii_of_nat 10]. split; [reflexivity|]. apply a_blank; [now right|apply no_content].
  - intros x. match type of HT with says (andthen ?A ?B) _ _ =>
      instantiate (1 := andthen _ (andthen (andthen (reports cases) (andthen A B)) (xml_close mm (lit "Catch2TestRun")))) end.
    cbn [xml_reports xml_report]. rewrite (andthen_assoc (xml_print mm _)). apply andthen_ext. intros y. apply andthen_ext. intros z.
    rewrite reports_app, (andthen_assoc (reports cases)). apply andthen_ext. intros w. cbn [xml_reports xml_report].
    rewrite !andthen_assoc. apply andthen_ext. intros w1. rewrite !andthen_assoc. apply andthen_ext. intros w2.
    unfold andthen, nothing. destruct (xml_close mm (lit "Catch2TestRun") w2) as [[? ?]|]; cbn [bind]; auto. now rewrite app_nil_r.
  - eapply says_element with (name := lit "Catch2TestRun"); [vm_compute; auto| |apply says_then; [apply (says_cases cases n T 1 Fa)|exact HT]].
    eapply opens_with; [exact En|]. eapply opens_with; [exact Ef|]. apply opens_open.
    pair1; [exact Cn|]. pair1; [literal|]. pair1; [literal|].
    pair1. { apply harmless_encoded. apply harmless_app; auto. intros x I S. vm_compute in I. cbn -[ascii_of_nat] in S.
             repeat (destruct I as [<-|I]; [repeat (destruct S as [S|S]; [discriminate S|]); destruct S|]). destruct I. }
    pair1; [exact Cf|]. apply Forall2_nil.
Qed.

(** ** Listings *)
Lemma says_open_close name s e k : xml_name name -> encoded xml_entities s e -> says (xml_open_close mm name e) k [leaf name s].
Proof.
  intros N E. unfold leaf. destruct e as [|c e].
  - inversion E as [H| |c e' s' t I E' Q1 Q2]; subst; [|exfalso].
    + apply says_node; auto. apply Forall2_nil.
    + apply app_eq_nil in Q2 as [-> _]. cbn -[ascii_of_nat] in I. repeat (destruct I as [I|I]; [discriminate I|]). destruct I.
  - set (e0 := c :: e) in *. destruct (emits_texts [get_indent k; lit "<"; name; lit ">"; e0; lit "</"; name; lit ">" ++ line_feed] k) as (out & Eo & Co).
    exists (List.concat out). split; [exists out; split; [exact Eo|reflexivity]|]. rewrite Co. cbn [List.concat].
    replace (get_indent k ++ lit "<" ++ name ++ lit ">" ++ e0 ++ lit "</" ++ name ++ (lit ">" ++ line_feed) ++ [])
      with (get_indent k ++ (quote "<" ++ name ++ [] ++ quote ">" ++ e0 ++ quote "</" ++ name ++ quote ">" ++ []) ++ [ascii_of_nat 10])
      by (cbn [app]; rewrite !app_nil_r, <- !app_assoc; reflexivity).
    apply content_indent, content_feed. apply an_element; auto; [apply no_attribute|now apply content_data|apply no_content].
Qed.
Lemma says_escaped_leaf name s k : xml_name name -> fits mm s -> says (with_text (xml_make_escaped mm s) (xml_open_close mm name)) k [leaf name s].
Proof. intros N F. destruct (escaped_fits s F) as (e & E & C). eapply says_with; eauto. now apply says_open_close. Qed.

Lemma says_listed e k : (exists id line, e = TestCaseListed id line) -> readable e -> says (report e) k [listed_node full id_tags id_fixture file decimal e].
Proof.
  intros (id & line & ->) R. cbn [XmlSpec.readable] in R. destruct R as (R1 & R2 & R3 & R4 & R5).
  destruct (full_name_fits _ R1) as (ne & En & Cn). cbn [listed_node].
  set (e := TestCaseListed id line) in *.
  set (S1 := with_text (xml_make_full_name mn id) (xml_open_close mm (lit "Name"))).
  set (S2 := with_text (xml_make_escaped mm (id_fixture id)) (xml_open_close mm (lit "ClassName"))).
  set (S3 := with_text (xml_make_escaped mm (id_tags id)) (xml_open_close mm (lit "Tags"))).
  set (S4 := with_text (xml_make_escaped mm (file e)) (xml_open_close mm (lit "File"))).
  set (S5 := number line (xml_open_close mm (lit "Line"))).
  set (S6 := andthen (xml_open mm (lit "SourceInfo") []) (andthen (andthen S4 S5) (xml_close mm (lit "SourceInfo")))).
  assert (H6 : says S6 (S k) [Element (quote "SourceInfo") [] [leaf (quote "File") (file e); leaf (quote "Line") (decimal line)]]).
  { apply says_element; [vm_compute; auto|apply opens_open, Forall2_nil|]. change [?a; ?b] with ([a] ++ [b]). apply says_then.
    - apply says_escaped_leaf; auto. vm_compute. auto.
    - apply says_number; auto. apply says_open_close; [vm_compute; auto|now apply decimal_string]. }
  eapply says_ext; [|eapply says_element with (name := quote "TestCase") (body := andthen S1 (andthen S2 (andthen S3 S6)))].
  - intros x. cbn [xml_report e]. apply andthen_ext. intros y. rewrite !andthen_assoc. apply andthen_ext. intros z. rewrite !andthen_assoc.
    apply andthen_ext. intros z1. rewrite !andthen_assoc. apply andthen_ext. intros z2. unfold S6. rewrite !andthen_assoc. apply andthen_ext. intros z3.
    rewrite !andthen_assoc. reflexivity.
  - vm_compute. auto.
  - apply opens_open, Forall2_nil.
  - change [?a; ?b; ?c; ?d] with ([a] ++ [b] ++ [c] ++ [d]). apply says_then; [|apply says_then; [|apply says_then; [|exact H6]]].
    + eapply says_with; [exact En|]. apply says_open_close; auto. vm_compute. auto.
    + apply says_escaped_leaf; auto. vm_compute. auto.
    + apply says_escaped_leaf; auto. vm_compute. auto.
Qed.

Theorem listing_document tests l root : (l, root) = told_listing full id_tags id_fixture file decimal tests -> Forall readable l ->
  exists out, reports l 0 = Ok (0, out) /\ document root (List.concat out).
Proof.
  intros [= -> ->] F. inversion F as [|x y _ F1]; subst. apply Forall_app in F1 as [Fa _].
  set (m := map (fun x => TestCaseListed (fst x) (snd x)) tests) in *.
  assert (H : says (reports m) 1 (map (listed_node full id_tags id_fixture file decimal) m)).
  { subst m. clear F. induction tests as [|x tests IH]; [apply says_nothing|]. cbn [map xml_reports] in *. inversion Fa as [|? ? R1 F1]; subst.
    apply (says_then _ _ _ [_]); [|apply IH; auto]. apply says_listed; eauto. }
  eapply (says_document xml_prolog); [| | |reflexivity].
  - exists []. split; [reflexivity|apply no_content].
  - intros x. instantiate (1 := andthen _ (andthen (reports m) (xml_close mm (lit "MatchingTests")))). cbn [xml_reports xml_report]. rewrite andthen_assoc. apply andthen_ext. intros y. apply andthen_ext. intros z.
    rewrite reports_app. apply andthen_ext. intros w. cbn [xml_reports xml_report].
    unfold andthen, nothing. destruct (xml_close mm (lit "MatchingTests") w) as [[? ?]|]; cbn [bind]; auto. now rewrite app_nil_r.
  - eapply says_element with (name := lit "MatchingTests"); [vm_compute; auto|apply opens_open, Forall2_nil|exact H].
Qed.
End Xml.
