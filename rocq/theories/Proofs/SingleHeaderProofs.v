(** C92: the library as one header. *)
From Coq Require Import Relations.
From Verif.Spec Require Import TextSpec FilterSpec SingleHeaderSpec.
From Verif.Model Require Import Base SingleHeader.

(** ** Texts *)
Lemma aeqb_iff a b : aeqb a b = true <-> a = b.
Proof. apply Ascii.eqb_eq. Qed.
Lemma seqb_iff a : forall b, seqb a b = true <-> a = b.
Proof.
  induction a as [|x a IH]; intros [|y b]; cbn [seqb]; try (split; (reflexivity || discriminate)).
  rewrite andb_true_iff, aeqb_iff, IH. split; [intros (-> & ->); auto|intros E; injection E; auto].
Qed.
Lemma starts_iff s p : starts_with s p = true <-> exists r, s = p ++ r.
Proof.
  revert s. induction p as [|c p IH]; intros s; cbn [starts_with].
  - split; auto. exists s. reflexivity.
  - destruct s as [|d s]. { split; [discriminate|intros (r & E); discriminate]. }
    rewrite andb_true_iff, aeqb_iff, IH. split.
    + intros (-> & r & ->). now exists r.
    + intros (r & E). injection E as -> ->. eauto.
Qed.
Lemma ends_iff s p : ends_with s p = true <-> exists r, s = r ++ p.
Proof.
  unfold ends_with. rewrite starts_iff. split; intros (r & E).
  - exists (rev r). rewrite <- (rev_involutive s), E, rev_app_distr, !rev_involutive. reflexivity.
  - exists (rev r). now rewrite E, rev_app_distr.
Qed.
Lemma is_in_iff p s : is_in p s = true <-> occurs p s.
Proof.
  unfold is_in, occurs. induction s as [|c s IH]; cbn [find].
  - destruct (starts_with [] p) eqn:E.
    + apply starts_iff in E. destruct E as (r & E). split; auto. exists [], r. exact E.
    + split; [discriminate|]. intros (a & b & Q). exfalso. destruct a; [|discriminate]. cbn in Q.
      assert (starts_with [] p = true) by (apply starts_iff; eauto). congruence.
  - destruct (starts_with (c :: s) p) eqn:E.
    + apply starts_iff in E. destruct E as (r & E). split; auto. exists [], r. exact E.
    + split.
      * destruct (find s p); [|discriminate]. intros _. destruct (proj1 IH eq_refl) as (a & b & ->). now exists (c :: a), b.
      * intros ([|c' a] & b & Q).
        { cbn in Q. assert (starts_with (c :: s) p = true) by (apply starts_iff; eauto). congruence. }
        injection Q as <- ->. destruct (find (a ++ p ++ b) p); auto. apply IH. eauto.
Qed.
Lemma join_within a b : join a b = within a b.
Proof.
  unfold join, within. destruct a as [|c a]; [reflexivity|].
  destruct (exists_last (l := c :: a)) as (r & d & ->); [discriminate|]. rewrite rev_app_distr. cbn [rev app].
  replace (match r ++ [d] with [] => b | _ :: _ => if ends_with (r ++ [d]) (lit "/") then (r ++ [d]) ++ b else (r ++ [d]) ++ lit "/" ++ b end)
    with (if ends_with (r ++ [d]) (lit "/") then (r ++ [d]) ++ b else (r ++ [d]) ++ lit "/" ++ b) by (destruct r; reflexivity).
  replace (ends_with (r ++ [d]) (lit "/")) with (Ascii.eqb d "/"%char); [reflexivity|].
  unfold ends_with. rewrite rev_app_distr. change (rev (lit "/")) with ["/"%char]. cbn [rev app starts_with]. rewrite andb_true_r. unfold aeqb. apply Ascii.eqb_sym.
Qed.

Lemma is_blank_iff c : is_blank c = true <-> white c.
Proof. unfold is_blank, white. rewrite orb_true_iff, !andb_true_iff, !Nat.leb_le. tauto. Qed.
Lemma skip_blanks_split s : exists b, s = b ++ skip_blanks s /\ Forall white b.
Proof.
  induction s as [|c s (b & E & F)]; cbn [skip_blanks]; [exists []; auto|].
  destruct (is_blank c) eqn:B.
  - exists (c :: b). cbn [app]. rewrite <- E. split; auto. constructor; auto. now apply is_blank_iff.
  - exists []. auto.
Qed.
Lemma skip_blanks_app b s : Forall white b -> (forall c s', s = c :: s' -> is_blank c = false) -> skip_blanks (b ++ s) = s.
Proof.
  intros F N. induction F as [|c b W F IH]; cbn [app skip_blanks].
  - destruct s as [|c s]; auto. cbn [skip_blanks]. now rewrite (N c s eq_refl).
  - now rewrite (proj2 (is_blank_iff c) W).
Qed.

Lemma find_quote s n : find_if (aeqb dquote) s = Some n ->
  exists g r, s = g ++ [double_quote] ++ r /\ length g = n /\ firstn n s = g /\ ~ In double_quote g.
Proof.
  revert n. induction s as [|c s IH]; intros n E; cbn [find_if] in E; [discriminate|].
  destruct (aeqb dquote c) eqn:Q.
  - injection E as <-. apply aeqb_iff in Q. subst c. exists [], s. cbn. auto.
  - destruct (find_if (aeqb dquote) s) as [k|]; [|discriminate]. injection E as <-.
    destruct (IH k eq_refl) as (g & r & -> & L & F & NI). exists (c :: g), r. split; [reflexivity|]. split; [cbn; now rewrite L|].
    split; [cbn [firstn]; now rewrite F|]. intros [->|H]; auto. unfold aeqb in Q. now rewrite Ascii.eqb_refl in Q.
Qed.
Lemma quote_found g r : ~ In double_quote g -> find_if (aeqb dquote) (g ++ [double_quote] ++ r) = Some (length g).
Proof.
  induction g as [|c g IH]; intros NI; cbn [app find_if].
  - replace (aeqb dquote double_quote) with true; auto.
  - destruct (aeqb dquote c) eqn:Q; [apply aeqb_iff in Q; exfalso; apply NI; left; auto|].
    change (g ++ double_quote :: r) with (g ++ [double_quote] ++ r). rewrite IH; [reflexivity|]. intros H. apply NI. now right.
Qed.

Lemma suffix_of {A} (a b c d : list A) : c ++ d = a ++ b -> length b <= length d -> exists m, d = m ++ b.
Proof.
  revert c. induction a as [|x a IH]; intros c E L.
  - cbn in E. exists []. cbn. destruct c as [|y c]; auto. exfalso. apply (f_equal (@length _)) in E. cbn in E. rewrite app_length in E. lia.
  - destruct c as [|y c].
    + cbn in E. exists (x :: a). now rewrite E.
    + injection E as -> E. eauto.
Qed.

Lemma match_include_iff p q s g : match_include p q s = Some g <-> begins p q s g.
Proof.
  split.
  - unfold match_include. destruct s as [|c s1]; [discriminate|]. destruct (aeqb c "#"%char) eqn:H; [|discriminate].
    apply aeqb_iff in H. subst c. destruct (skip_blanks_split s1) as (b & E & F).
    destruct (starts_with (skip_blanks s1) _) eqn:ST; [|discriminate]. apply starts_iff in ST. destruct ST as (s3 & ES). rewrite ES.
    change (skipn 9 ((lit "include " ++ [dquote]) ++ s3)) with s3.
    destruct (find_if (aeqb dquote) s3) as [n|] eqn:FI; [|discriminate].
    destruct (find_quote s3 n FI) as (g' & r & -> & L & FN & NI). rewrite FN.
    destruct (starts_with g' p && ends_with g' q && (length p + 1 + length q <=? length g')) eqn:C; [|discriminate].
    intros X. injection X as <-. apply andb_true_iff in C. destruct C as (C & C3). apply andb_true_iff in C. destruct C as (C1 & C2).
    apply starts_iff in C1. apply ends_iff in C2. apply Nat.leb_le in C3. destruct C1 as (r1 & ->). destruct C2 as (r2 & E2).
    assert (exists mid, r1 = mid ++ q) as (mid & ->).
    { symmetry in E2. destruct (suffix_of r2 q p r1 (eq_sym E2)) as (m & Q); [rewrite app_length in C3; lia|eauto]. }
    exists b, mid, r. split; [|split; [auto|split; [auto|split; [|auto]]]].
    + rewrite E, ES. change (quote "include ") with (lit "include "). rewrite <- !app_assoc. reflexivity.
    + intros ->. rewrite !app_length in C3. cbn in C3. lia.
  - intros (b & mid & r & -> & F & -> & NE & NI). change (quote "#" ++ ?x) with ("#"%char :: x). unfold match_include.
    rewrite (proj2 (aeqb_iff _ _) eq_refl). rewrite skip_blanks_app; auto.
    2:{ intros c s' X. injection X as <- _. reflexivity. }
    replace (starts_with _ (lit "include " ++ [dquote])) with true.
    2:{ symmetry. apply starts_iff. eexists. rewrite <- app_assoc. reflexivity. }
    change (skipn 9 (quote "include " ++ [double_quote] ++ (p ++ mid ++ q) ++ [double_quote] ++ r)) with ((p ++ mid ++ q) ++ [double_quote] ++ r).
    rewrite quote_found by auto. rewrite firstn_app, firstn_all, Nat.sub_diag. cbn [firstn]. rewrite app_nil_r.
    replace (starts_with (p ++ mid ++ q) p) with true by (symmetry; apply starts_iff; eauto).
    replace (ends_with (p ++ mid ++ q) q) with true by (symmetry; apply ends_iff; exists (p ++ mid); now rewrite app_assoc).
    replace (length p + 1 + length q <=? length (p ++ mid ++ q)) with true; [reflexivity|].
    symmetry. apply Nat.leb_le. rewrite !app_length. destruct mid; [congruence|cbn [length]; lia].
Qed.

Lemma search_include_iff p q s g : search_include p q s = Some g <-> includes p q s g.
Proof.
  revert g. induction s as [|c s IH]; intros g; cbn [search_include].
  - destruct (match_include p q []) eqn:M; [discriminate|]. split; [discriminate|]. intros (b & s' & E & B & _).
    symmetry in E. apply app_eq_nil in E. destruct E as (-> & ->). apply match_include_iff in B. congruence.
  - destruct (match_include p q (c :: s)) as [g'|] eqn:M.
    + pose proof (proj1 (match_include_iff _ _ _ _) M) as B. split.
      * intros E. injection E as <-. exists [], (c :: s). repeat split; auto. intros. cbn. lia.
      * intros (b & s' & E & B' & MIN). specialize (MIN [] (c :: s) g' eq_refl B). destruct b; [|cbn in MIN; lia]. cbn in E. subst s'.
        apply match_include_iff in B'. congruence.
    + rewrite IH. split.
      * intros (b & s' & -> & B & MIN). exists (c :: b), s'. repeat split; auto. intros [|c' b'] s'' g' E B'.
        { cbn in E. subst s''. apply match_include_iff in B'. congruence. }
        injection E as <- E. specialize (MIN b' s'' g' E B'). cbn. lia.
      * intros ([|c' b] & s' & E & B & MIN).
        { cbn in E. subst s'. apply match_include_iff in B. congruence. }
        injection E as <- ->. exists b, s'. repeat split; auto. intros b' s'' g' E B'.
        specialize (MIN (c :: b') s'' g'). cbn in MIN. rewrite E in MIN. specialize (MIN eq_refl B'). lia.
Qed.

Lemma match_library_iff s : match_library s = true <-> dropped s.
Proof.
  unfold match_library, dropped. destruct s as [|c s]. { split; [discriminate|]. intros (b & r & E & _). discriminate. }
  rewrite andb_true_iff, aeqb_iff, starts_iff. split.
  - intros (-> & r & E). destruct (skip_blanks_split s) as (b & Q & F). exists b, r. split; auto. rewrite Q, E. rewrite <- !app_assoc. reflexivity.
  - intros (b & r & E & F). injection E as -> ->. split; auto. exists r. rewrite skip_blanks_app; auto.
    intros c s' X. injection X as <- _. reflexivity.
Qed.

Lemma write_lines_stripped lines : exists l, stripped lines l /\ write_lines lines = List.concat l.
Proof.
  induction lines as [|x lines (l & S & E)]; cbn [write_lines]; [exists []; split; [constructor|reflexivity]|].
  destruct (match_library x) eqn:M.
  - exists l. split; auto. constructor; auto. now apply match_library_iff.
  - exists (x :: l). split; [|cbn; now rewrite E]. apply stripped_keep; auto. intros D. apply match_library_iff in D. congruence.
Qed.

(** ** The dictionary of the headers *)
Section Script.
Variable fs : files.
Variables root build : text.
Hypothesis AR : absolute root.
Hypothesis AB : absolute build.

Notation child := (child_header root build).
Notation needs := (needs root build fs).
Notation chain := (chain root build fs).

Lemma within_absolute d n : absolute d -> absolute (within d n).
Proof.
  intros (r & ->). change (quote "/" ++ r) with ("/"%char :: r). unfold within. destruct (rev ("/"%char :: r)) as [|c l] eqn:E.
  - apply (f_equal (@rev _)) in E. rewrite rev_involutive in E. discriminate.
  - destruct (Ascii.eqb c "/"%char); cbn [app]; [exists (r ++ n)|exists (r ++ quote "/" ++ n)]; reflexivity.
Qed.
Lemma child_absolute n : absolute (child n).
Proof using AR AB.
  unfold child_header. rewrite join_within. apply within_absolute. destruct (is_in _ n); auto. rewrite join_within. now apply within_absolute.
Qed.
Lemma located_child n f : located root build n f <-> f = child n.
Proof.
  unfold located, child_header. rewrite !join_within. change (lit "snitch_config.hpp") with (quote "snitch_config.hpp"). change (lit "include") with (quote "include").
  rewrite <- is_in_iff. destruct (is_in (quote "snitch_config.hpp") n); split.
  - intros [(X & Y)|(X & Y)]; congruence.
  - auto.
  - intros [(X & Y)|(X & Y)]; congruence.
  - intros ->. right. split; [discriminate|reflexivity].
Qed.

(** The headers included by lines. *)
Fixpoint kids (lines : list text) : list text :=
  match lines with
  | [] => []
  | l :: lines' => match search_include (lit "snitch/snitch_") (lit "hpp") l with
                   | Some n => child n :: kids lines'
                   | None => kids lines'
                   end
  end.
Lemma kids_in lines g : In g (kids lines) <-> exists line n, In line lines /\ header_name line n /\ located root build n g.
Proof.
  induction lines as [|l lines IH]; cbn [kids].
  - split; [intros []|intros (? & ? & [] & _)].
  - destruct (search_include (lit "snitch/snitch_") (lit "hpp") l) as [n|] eqn:E.
    + cbn [In]. rewrite IH. split.
      * intros [<-|(line & m & I & H & L)].
        { exists l, n. split; [now left|]. split; [now apply search_include_iff|]. now apply located_child. }
        { exists line, m. split; [now right|auto]. }
      * intros (line & m & [->|I] & H & L).
        { left. apply search_include_iff in H. change (quote "snitch/snitch_") with (lit "snitch/snitch_") in H. change (quote "hpp") with (lit "hpp") in H.
          rewrite E in H. injection H as ->. symmetry. now apply located_child. }
        { right. eauto. }
    + rewrite IH. split.
      * intros (line & m & I & H & L). exists line, m. split; [now right|auto].
      * intros (line & m & [->|I] & H & L); eauto.
        apply search_include_iff in H. change (quote "snitch/snitch_") with (lit "snitch/snitch_") in H. change (quote "hpp") with (lit "hpp") in H. congruence.
Qed.
Lemma needs_kids f lines : fs f = Some lines -> forall g, needs f g <-> In g (kids lines).
Proof.
  intros E g. rewrite kids_in. unfold SingleHeaderSpec.needs. split.
  - intros (ls & line & n & E' & R). rewrite E in E'. injection E' as <-. eauto.
  - intros (line & n & R). exists lines, line, n. auto.
Qed.
Lemma needs_exists f g : needs f g -> exists lines, fs f = Some lines.
Proof. intros (lines & _ & _ & E & _). eauto. Qed.

Definition keys (m : dictionary) : list text := map fst m.
Lemma member_iff m k : member m k = true <-> In k (keys m).
Proof.
  induction m as [|(k' & v) m IH]; cbn [member keys map fst In]; [split; [discriminate|tauto]|].
  rewrite orb_true_iff, seqb_iff, IH. unfold keys. intuition congruence.
Qed.
Lemma listed_iff k l : listed k l = true <-> In k l.
Proof.
  unfold listed. rewrite existsb_exists. split.
  - intros (x & I & E). apply seqb_iff in E. now subst.
  - intros I. exists k. split; auto. now apply seqb_iff.
Qed.
Lemma put_keys m k v : keys (put m k v) = if member m k then keys m else keys m ++ [k].
Proof.
  induction m as [|(k' & v') m IH]; cbn [put member]; [reflexivity|].
  destruct (seqb k k') eqn:E; cbn [orb keys map fst].
  - reflexivity.
  - unfold keys in IH. rewrite IH. now destruct (member m k).
Qed.
Lemma put_in m k v k0 v0 : In (k0, v0) (put m k v) -> (k0, v0) = (k, v) \/ In (k0, v0) m.
Proof.
  induction m as [|(k' & v') m IH]; cbn [put].
  - intros [H|[]]; auto.
  - destruct (seqb k k') eqn:E.
    + apply seqb_iff in E. subst k'. intros [H|H]; [left; congruence|right; now right].
    + intros [H|H]; [right; now left|]. destruct (IH H); auto. right. now right.
Qed.
Lemma put_nodup m k v : NoDup (keys m) -> NoDup (keys (put m k v)).
Proof.
  intros N. rewrite put_keys. destruct (member m k) eqn:E; auto.
  assert (~ In k (keys m)) by (intros H; apply member_iff in H; congruence).
  apply (NoDup_Add (a := k) (l := keys m)); [|split; auto]. rewrite <- (app_nil_r (keys m)) at 1. apply Add_app.
Qed.
Lemma put_key_incl m k v x : In x (keys (put m k v)) <-> In x (keys m) \/ x = k.
Proof.
  rewrite put_keys. destruct (member m k) eqn:E.
  - apply member_iff in E. split; [auto|intros [H| ->]; auto].
  - rewrite in_app_iff. cbn. intuition congruence.
Qed.

(** A dictionary as it should be. *)
Record sound (m : dictionary) : Prop := {
  s_lines : forall k v, In (k, v) m -> exists lines, fs k = Some lines /\ v = kids lines;
  s_closed : forall k v c, In (k, v) m -> In c v -> In c (keys m);
  s_once : NoDup (keys m);
  s_absolute : forall k, In k (keys m) -> absolute k
}.

Lemma no_include_key m l n : sound m -> search_include (lit "snitch/snitch_") (lit "hpp") l = Some n -> member m n = false.
Proof.
  intros S E. destruct (member m n) eqn:M; auto. exfalso. apply member_iff in M. apply (s_absolute m S) in M. destruct M as (r & ->).
  apply search_include_iff in E. destruct E as (b & s & _ & (bl & mid & rest & _ & _ & X & _) & _). discriminate.
Qed.

Lemma sound_put m k lines : sound m -> fs k = Some lines -> (forall c, In c (kids lines) -> In c (keys m)) -> absolute k ->
  sound (put m k (kids lines)).
Proof.
  intros [S1 S2 S3 S4] E C A. split.
  - intros k0 v0 H. destruct (put_in _ _ _ _ _ H) as [X|X]; [injection X as -> ->; eauto|eauto].
  - intros k0 v0 c H I. apply put_key_incl. left. destruct (put_in _ _ _ _ _ H) as [X|X]; [injection X as -> ->; eauto|eauto].
  - now apply put_nodup.
  - intros k0 H. apply put_key_incl in H. destruct H as [H| ->]; auto.
Qed.

Definition below (f k : text) : Prop := clos_trans _ needs f k.

(** What [add_headers] does if it succeeds. *)
Definition added (d : nat) (m : dictionary) (f : text) (m' : dictionary) (hs : list text) : Prop :=
  (exists lines, fs f = Some lines /\ hs = kids lines) /\ sound m' /\
  (forall k, In k (keys m) -> In k (keys m')) /\
  (forall k, In k (keys m') -> In k (keys m) \/ below f k) /\
  (forall c, In c hs -> In c (keys m')) /\
  (forall l, chain f l -> length l <= d).

Lemma add_lines_spec (d : nat) add :
  (forall m f m' hs, sound m -> absolute f -> add m f = Done (m', hs) -> added d m f m' hs) ->
  forall lines m headers m' hs, sound m -> add_lines root build add m headers lines = Done (m', hs) ->
  hs = headers ++ kids lines /\ sound m' /\
  (forall k, In k (keys m) -> In k (keys m')) /\
  (forall k, In k (keys m') -> In k (keys m) \/ exists c, In c (kids lines) /\ (k = c \/ below c k)) /\
  (forall c, In c (kids lines) -> In c (keys m')) /\
  (forall c l, In c (kids lines) -> chain c l -> length l <= d).
Proof using AR AB.
  intros IH. induction lines as [|x lines IL]; intros m headers m' hs S E; cbn [add_lines kids] in *.
  - injection E as <- <-. rewrite app_nil_r. do 4 (split; auto). split; intros ? *; [intros []|intros []].
  - destruct (search_include (lit "snitch/snitch_") (lit "hpp") x) as [n|] eqn:X; [|now apply IL].
    rewrite (no_include_key m x n S X) in E. cbn [negb] in E.
    destruct (add m (child n)) as [(m1 & hs1)|e] eqn:A; cbn [andthen] in E; [|discriminate].
    destruct (IH _ _ _ _ S (child_absolute n) A) as ((ls & EL & ->) & S1 & K1 & K2 & C1 & CH1).
    assert (S2 : sound (put m1 (child n) (kids ls))) by (apply sound_put; auto; apply child_absolute).
    destruct (IL _ _ _ _ S2 E) as (-> & S3 & K3 & K4 & C3 & CH3).
    split; [now rewrite <- app_assoc|]. split; auto. split; [|split; [|split]].
    + intros k I. apply K3, put_key_incl. auto.
    + intros k I. destruct (K4 k I) as [I1|(c & Ic & R)].
      * apply put_key_incl in I1. destruct I1 as [I1| ->].
        { destruct (K2 k I1); auto. right. exists (child n). split; [now left|auto]. }
        { right. exists (child n). split; [now left|auto]. }
      * right. exists c. split; [now right|auto].
    + intros c [<-|I]; auto. apply K3, put_key_incl. auto.
    + intros c l [<-|I] H; eauto.
Qed.

Lemma add_headers_spec d : forall m f m' hs, sound m -> absolute f -> add_headers fs root build d m f = Done (m', hs) -> added d m f m' hs.
Proof using AR AB.
  induction d as [|d IH]; intros m f m' hs S A E; cbn [add_headers] in E; [discriminate|].
  unfold open_file in E. destruct (fs f) as [lines|] eqn:EF; cbn [andthen] in E; [|discriminate].
  destruct (add_lines_spec d _ IH lines m [] m' hs S E) as (-> & S' & K1 & K2 & C & CH). cbn [app].
  assert (K2' : forall k, In k (keys m') -> In k (keys m) \/ below f k).
  { intros k I. destruct (K2 k I) as [I1|(c & Ic & R)]; auto. right.
    assert (N : needs f c) by (now apply (needs_kids f lines EF)).
    destruct R as [-> |R]; [now apply t_step|]. eapply t_trans; [apply t_step; eauto|auto]. }
  split; [eauto|]. do 4 (split; [assumption|]).
  intros l H. inversion H as [f0|f0 g l' N H']; subst; cbn [length]; [lia|].
  apply (needs_kids f lines EF) in N. specialize (CH g l' N H'). lia.
Qed.

(** ** When it succeeds and when it does not *)
Lemma below_first f g k : needs f g -> k = g \/ below g k -> below f k.
Proof. intros N [-> |B]; [now apply t_step|]. eapply t_trans; [apply t_step; eauto|auto]. Qed.

Lemma add_lines_total (d : nat) add (P : text -> Prop) :
  (forall m f m' hs, sound m -> absolute f -> add m f = Done (m', hs) -> added d m f m' hs) ->
  (forall m f e, sound m -> absolute f -> P f -> add m f = Raised e -> e = TooDeep /\ exists l, chain f l /\ length l = Datatypes.S d) ->
  forall lines m headers e, sound m -> (forall c, In c (kids lines) -> P c) -> add_lines root build add m headers lines = Raised e ->
  e = TooDeep /\ exists c l, In c (kids lines) /\ chain c l /\ length l = Datatypes.S d.
Proof using AR AB.
  intros IH IE. induction lines as [|x lines IL]; intros m headers e S PK E; cbn [add_lines kids] in *; [discriminate|].
  destruct (search_include (lit "snitch/snitch_") (lit "hpp") x) as [n|] eqn:X; [|eapply IL; eauto].
  rewrite (no_include_key m x n S X) in E. cbn [negb] in E.
  destruct (add m (child n)) as [(m1 & hs1)|e1] eqn:A; cbn [andthen] in E.
  - destruct (IH _ _ _ _ S (child_absolute n) A) as ((ls & EL & ->) & S1 & K1 & K2 & C1 & CH1).
    assert (S2 : sound (put m1 (child n) (kids ls))) by (apply sound_put; auto; apply child_absolute).
    destruct (IL _ _ _ S2 (fun c I => PK c (or_intror I)) E) as (-> & c & l & I & C & L). split; auto. exists c, l. split; [now right|auto].
  - injection E as <-. destruct (IE _ _ _ S (child_absolute n) (PK _ (or_introl eq_refl)) A) as (-> & l & C & L). split; auto.
    exists (child n), l. split; [now left|auto].
Qed.

Notation present := (present fs).
Lemma add_headers_total d : forall m f e, sound m -> absolute f -> present f /\ (forall k, below f k -> present k) ->
  add_headers fs root build d m f = Raised e -> e = TooDeep /\ exists l, chain f l /\ length l = Datatypes.S d.
Proof using AR AB.
  induction d as [|d IH]; intros m f e S A (PF & PB) E; cbn [add_headers] in E.
  - injection E as <-. split; auto. exists [f]. split; [constructor|reflexivity].
  - destruct PF as (lines & EF). unfold open_file in E. rewrite EF in E. cbn [andthen] in E.
    destruct (add_lines_total d (add_headers fs root build d) (fun g => present g /\ forall k, below g k -> present k)
                (add_headers_spec d) IH lines m [] e S) as (-> & c & l & I & C & L); auto.
    + intros c I. apply (needs_kids f lines EF) in I. split; [apply PB; now apply t_step|]. intros k B. apply PB. eapply below_first; eauto.
    + split; auto. exists (f :: l). split; [|cbn; now rewrite L]. econstructor; eauto. now apply (needs_kids f lines EF).
Qed.

Lemma chain_below f k l : below f k -> chain k l -> exists l', chain f l' /\ length l < length l'.
Proof.
  intros B. apply clos_trans_t1n in B. induction B as [f k N|f g k N B IH]; intros C.
  - exists (f :: l). split; [econstructor; eauto|cbn; lia].
  - destruct (IH C) as (l' & C' & L). exists (f :: l'). split; [econstructor; eauto|cbn; lia].
Qed.
Lemma cycle_chains g n : below g g -> exists l, chain g l /\ n <= length l.
Proof.
  intros B. induction n as [|n (l & C & L)]; [exists [g]; split; [constructor|cbn; lia]|].
  destruct (chain_below g g l B C) as (l' & C' & L'). exists l'. split; auto. lia.
Qed.

(** ** The order *)
Section Order.
Variable m : dictionary.
Hypothesis SM : sound m.
Variable bound : nat.
Hypothesis BM : forall k l, In k (keys m) -> chain k l -> length l <= bound.

(** Each of the files is a key, and after those it includes. *)
Record fine (l : list text) : Prop := {
  f_once : NoDup l;
  f_keys : forall k, In k l -> In k (keys m);
  f_arranged : arranged root build fs l
}.

Lemma key_entry k : In k (keys m) -> exists v, In (k, v) m.
Proof. unfold keys. intros I. apply in_map_iff in I. destruct I as ((k' & v) & E & I). cbn in E. subst. eauto. Qed.

Lemma fine_add l k v : fine l -> In (k, v) m -> ~ In k l -> (forall c, In c v -> In c l) -> fine (l ++ [k]).
Proof using SM.
  intros [F1 F2 F3] I N C. split.
  - apply (NoDup_Add (a := k) (l := l)); [|split; auto]. rewrite <- (app_nil_r l) at 1. apply Add_app.
  - intros k' I'. apply in_app_or in I'. destruct I' as [I'|[<-|[]]]; auto. unfold keys. apply in_map_iff. exists (k, v). auto.
  - intros l1 f l2 E g NG. destruct (exists_last (l := f :: l2)) as (l3 & z & E3); [discriminate|].
    rewrite E3, app_assoc in E. apply app_inj_tail in E. destruct E as (-> & <-).
    destruct l3 as [|y l3].
    + cbn in E3. injection E3 as <- ->. destruct (s_lines m SM f v I) as (lines & EL & ->). rewrite app_nil_r in *. apply C. now apply (needs_kids f lines EL).
    + injection E3 as <- _. eapply (F3 l1 f l3); eauto.
Qed.

Lemma pass_fine m' l : (forall e, In e m' -> In e m) -> fine l -> fine (pass m' l) /\ exists r, pass m' l = l ++ r.
Proof using SM.
  revert l. induction m' as [|(k & v) m' IH]; intros l I F; cbn [pass]; [split; auto; exists []; now rewrite app_nil_r|].
  destruct (negb (listed k l) && forallb (fun c => listed c l) v) eqn:E.
  - apply andb_true_iff in E. destruct E as (E1 & E2). apply negb_true_iff in E1. rewrite forallb_forall in E2.
    assert (F' : fine (l ++ [k])).
    { apply (fine_add l k v); auto; [apply I; now left|intros X; apply listed_iff in X; congruence|]. intros c Ic. apply listed_iff. auto. }
    destruct (IH (l ++ [k])) as (G & r & R); auto. { intros e H. apply I. now right. }
    split; auto. exists (k :: r). etransitivity; [exact R|]. now rewrite <- app_assoc.
  - apply IH; auto. intros e H. apply I. now right.
Qed.
Lemma pass_takes m' l k v : (forall e, In e m' -> In e m) -> fine l -> In (k, v) m' -> (forall c, In c v -> In c l) -> In k (pass m' l).
Proof using SM.
  revert l. induction m' as [|(k' & v') m' IH]; intros l I F H C; [destruct H|].
  change (In k (pass m' (pass [(k', v')] l))).
  destruct (pass_fine [(k', v')] l) as (F' & r & R); auto. { intros e [<-|[]]. apply I. now left. }
  assert (I' : forall e, In e m' -> In e m) by (intros e H'; apply I; now right).
  destruct H as [H|H].
  - destruct (pass_fine m' (pass [(k', v')] l) I' F') as (_ & r2 & R2).
    enough (X : In k (pass [(k', v')] l)) by (rewrite R2; apply in_or_app; now left).
    injection H as -> ->. cbn [pass]. destruct (listed k l) eqn:L; [apply listed_iff in L; exact L|].
    replace (forallb (fun c => listed c l) v) with true.
    { cbn [negb andb]. apply in_or_app. right. now left. }
    symmetry. apply forallb_forall. intros c Ic. apply listed_iff. auto.
  - apply IH; auto. intros c Ic. rewrite R. apply in_or_app. auto.
Qed.

(** A missing header all of whose headers are there. *)
Lemma ready l n : forall k, In k (keys m) -> ~ In k l -> (forall c, chain k c -> length c <= n) ->
  exists k' v, In (k', v) m /\ ~ In k' l /\ forall c, In c v -> In c l.
Proof using SM.
  induction n as [|n IH]; intros k I N B.
  - specialize (B [k] (chain_one _ _ _ k)). cbn in B. lia.
  - destruct (key_entry k I) as (v & E). destruct (s_lines m SM k v E) as (lines & EL & ->).
    destruct (forallb (fun c => listed c l) (kids lines)) eqn:A.
    + rewrite forallb_forall in A. exists k, (kids lines). repeat split; auto. intros c Ic. apply listed_iff. auto.
    + assert (exists c, In c (kids lines) /\ ~ In c l) as (c & Ic & Nc).
      { clear - A. induction (kids lines) as [|c r IHr]; [discriminate|]. cbn in A. destruct (listed c l) eqn:L.
        - destruct (IHr A) as (c' & I' & N'). exists c'. split; [now right|auto].
        - exists c. split; [now left|]. intros X. apply listed_iff in X. congruence. }
      apply (IH c); auto.
      * eapply s_closed; eauto.
      * intros ch C. assert (X : chain k (k :: ch)) by (econstructor; eauto; now apply (needs_kids k lines EL)).
        apply B in X. cbn in X. lia.
Qed.

Lemma incl_dec (l : list text) : (forall k, In k (keys m) -> In k l) \/ exists k, In k (keys m) /\ ~ In k l.
Proof.
  clear SM BM. induction (keys m) as [|k r [IH|(k' & I & N)]].
  - left. intros k [].
  - destruct (listed k l) eqn:L.
    + left. apply listed_iff in L. intros k' [<-|I]; auto.
    + right. exists k. split; [now left|]. intros X. apply listed_iff in X. congruence.
  - right. exists k'. split; [now right|auto].
Qed.

Lemma add_others_spec fuel : forall l : list str, fine l -> length m <= length l + fuel ->
  exists l', add_others fuel m l = Done l' /\ fine l' /\ forall k, In k (keys m) -> In k l'.
Proof using SM BM.
  assert (ML : length (keys m) = length m) by apply map_length.
  induction fuel as [|fuel IH]; intros l F L; cbn [add_others]; destruct (Nat.ltb_spec (length l) (length m)) as [H|H]; try lia.
  1,3: exists l; split; auto; split; auto; apply NoDup_length_incl; [apply F|unfold text, str, dictionary in *; lia|intros k; apply F].
  destruct (pass_fine m l (fun e I => I) F) as (G & r & R).
  destruct (incl_dec l) as [X|(k & I & N)].
  { exfalso. pose proof (NoDup_incl_length (s_once m SM) X). unfold text, str, dictionary in *. lia. }
  destruct (ready l bound k I N (fun c => BM k c I)) as (k' & v & I' & N' & C').
  pose proof (pass_takes m l k' v (fun e I => I) F I' C') as T.
  destruct r as [|z r]; [rewrite app_nil_r in R; rewrite R in T; contradiction|].
  assert (LR : length (pass m l) = length l + Datatypes.S (length r)) by (rewrite R; apply app_length).
  cbv zeta. match goal with |- context [?a =? ?b] => destruct (Nat.eqb_spec a b) as [Q|Q] end.
  { exfalso. unfold text, str, dictionary in *. lia. }
  apply IH; auto. unfold text, str, dictionary in *. lia.
Qed.

Lemma leaves_fine m' : (forall e, In e m' -> In e m) -> NoDup (keys m') -> fine (map fst (filter (fun e => length (snd e) =? 0) m')).
Proof using SM.
  intros I N. split.
  - induction m' as [|(k & v) m' IH]; cbn [filter map]; [constructor|]. inversion N as [|? ? N1 N2]; subst.
    assert (IH' := IH (fun e H => I e (or_intror H)) N2). destruct (length (snd (k, v)) =? 0); auto. cbn [map fst]. constructor; auto.
    intros X. apply N1. apply in_map_iff in X. destruct X as (e & E & X). apply filter_In in X. apply in_map_iff. exists e. tauto.
  - intros k X. apply in_map_iff in X. destruct X as ((k' & v) & E & X). apply filter_In in X. destruct X as (X & _). cbn in E. subst.
    unfold keys. apply in_map_iff. exists (k, v). auto.
  - intros l1 f l2 E g NG. exfalso.
    assert (X : In f (map fst (filter (fun e => length (snd e) =? 0) m'))) by (rewrite E; apply in_or_app; right; now left).
    apply in_map_iff in X. destruct X as ((k & v) & Q & X). cbn in Q. subst k. apply filter_In in X. destruct X as (X & Z). cbn [snd] in Z.
    apply I in X. destruct (s_lines m SM f v X) as (lines & EL & ->). apply (needs_kids f lines EL) in NG.
    apply Nat.eqb_eq in Z. destruct (kids lines); [destruct NG|discriminate].
Qed.
End Order.
End Script.

(** ** The sources, and what is written *)
Lemma add_sources_spec root lines : forall l, exists l', sources root lines l' /\ add_sources root lines l = l ++ l'.
Proof.
  induction lines as [|x lines IH]; intros l; cbn [add_sources]; [exists []; split; [constructor|now rewrite app_nil_r]|].
  destruct (search_include (lit "snitch_") (lit "cpp") x) as [n|] eqn:E.
  - destruct (IH (l ++ [join (join root (lit "src")) n])) as (l' & S & ->). rewrite !join_within in *.
    exists (within (within root (quote "src")) n :: l'). split; [|now rewrite <- app_assoc].
    apply source_line; auto. now apply search_include_iff.
  - destruct (IH l) as (l' & S & ->). exists l'. split; auto. constructor; auto. intros n H. apply search_include_iff in H.
    change (quote "snitch_") with (lit "snitch_") in H. change (quote "cpp") with (lit "cpp") in H. congruence.
Qed.
Lemma sources_once root lines l l' : sources root lines l -> sources root lines l' -> l = l'.
Proof.
  assert (U : forall x n n', source_name x n -> source_name x n' -> n = n').
  { intros x n n' A B. apply search_include_iff in A, B. congruence. }
  intros A. revert l'. induction A as [|x lines l N A IH|x lines l n N A IH]; intros l' B; inversion B; subst; auto.
  - exfalso. eapply N; eauto.
  - exfalso. match goal with H : forall name, ~ _ |- _ => eapply H; eauto end.
  - f_equal; auto. f_equal. eapply U; eauto.
Qed.

Lemma write_files_spec fs total : forall l count t, count + length l = total -> write_files fs total count l = Done t ->
  exists bodies, Forall2 (appears fs) l bodies /\ t = separated bodies.
Proof.
  induction l as [|f l IH]; intros count t C E; cbn [write_files] in E.
  - injection E as <-. exists []. split; [constructor|reflexivity].
  - unfold open_file in E. destruct (fs f) as [lines|] eqn:EF; cbn [andthen] in E; [|discriminate].
    destruct (write_files fs total (count + 1) l) as [rest|] eqn:ER; cbn [andthen] in E; [|discriminate]. injection E as <-.
    destruct (IH (count + 1) rest) as (bodies & F & ->); [cbn in C; lia|auto|].
    destruct (write_lines_stripped lines) as (ls & S & EL). rewrite EL.
    exists (appearance (is_in (lit ".cpp") f) ls :: bodies). split.
    + constructor; auto. exists lines, ls, (is_in (lit ".cpp") f). split; auto. split; auto. split; auto. apply is_in_iff.
    + unfold appearance. cbn [separated]. destruct bodies as [|b bodies].
      * inversion F; subst l. replace (count + 1 =? total) with true by (symmetry; apply Nat.eqb_eq; cbn in C; lia).
        cbn [negb separated]. rewrite !app_nil_r. reflexivity.
      * inversion F; subst l. replace (count + 1 =? total) with false by (symmetry; apply Nat.eqb_neq; cbn in C; lia).
        cbn [negb]. rewrite <- !app_assoc. reflexivity.
Qed.
Lemma write_files_total fs total : forall l count, (forall f, In f l -> present fs f) -> exists t, write_files fs total count l = Done t.
Proof.
  induction l as [|f l IH]; intros count P; cbn [write_files]; [eauto|].
  destruct (P f (or_introl eq_refl)) as (lines & E). unfold open_file. rewrite E. cbn [andthen].
  destruct (IH (count + 1)) as (t & ->); [intros g I; apply P; now right|]. cbn [andthen]. eauto.
Qed.
Lemma write_files_raised fs total : forall l count e, write_files fs total count l = Raised e -> e = NoSuchFile.
Proof.
  induction l as [|f l IH]; intros count e E; cbn [write_files] in E; [discriminate|].
  unfold open_file in E. destruct (fs f); cbn [andthen] in E; [|congruence].
  destruct (write_files fs total (count + 1) l) as [t|e'] eqn:W; cbn [andthen] in E; [discriminate|]. injection E as ->. eauto.
Qed.

Section Whole.
Variable fs : files.
Variables root build : text.
Variable limit : nat.
Hypothesis AR : absolute root.
Hypothesis AB : absolute build.

Lemma sound_nil : sound fs root build [].
Proof. split; [intros ? ? []|intros ? ? ? []|constructor|intros ? []]. Qed.
Lemma main_joined : join (join (join root (lit "include")) (lit "snitch")) (lit "snitch.hpp") = main_header root.
Proof. now rewrite !join_within. Qed.
Lemma main_source_joined : join (join root (lit "src")) (lit "snitch.cpp") = main_source root.
Proof. now rewrite !join_within. Qed.
Lemma main_absolute : absolute (main_header root).
Proof using AR. unfold main_header. now do 3 apply within_absolute. Qed.

(** The headers, in the order in which they are written. *)
Lemma headers_spec m hs : add_headers fs root build limit [] (main_header root) = Done (m, hs) ->
  exists l, add_others (length m) m (map fst (filter (fun e => length (snd e) =? 0) m)) = Done l /\
    NoDup l /\ (forall g, In g l <-> of_library root build fs g) /\ arranged root build fs l.
Proof using AR AB.
  intros E. destruct (add_headers_spec fs root build AR AB limit [] _ m hs sound_nil main_absolute E) as ((lines & EL & ->) & S & K1 & K2 & C & CH).
  assert (BELOW : forall k, In k (keys m) -> below fs root build (main_header root) k).
  { intros k I. destruct (K2 k I) as [[]|B]; auto. }
  assert (BM : forall k ch, In k (keys m) -> chain root build fs k ch -> length ch <= limit).
  { intros k ch Ik Ck. destruct (chain_below fs root build _ _ _ (BELOW k Ik) Ck) as (ch' & C' & L'). apply CH in C'. lia. }
  destruct (add_others_spec fs root build m S limit BM (length m) (map fst (filter (fun e => length (snd e) =? 0) m))) as (l & A & F & I).
  - apply leaves_fine; auto. apply S.
  - lia.
  - exists l. split; auto. destruct F as [F1 F2 F3]. split; auto. split; auto. intros g. split; [intros X; apply BELOW, F2, X|]. intros B. apply I.
    unfold of_library in B. apply clos_trans_tn1 in B. induction B as [g N|g h N B IH].
    + apply C. now apply (needs_kids fs root build _ lines EL).
    + destruct (key_entry m g IH) as (v & Iv). destruct (s_lines _ _ _ m S g v Iv) as (ls & EG & ->).
      eapply (s_closed _ _ _ m S); eauto. now apply (needs_kids fs root build _ ls EG).
Qed.

Theorem made t : script fs root build limit = Done t ->
  exists headers srcs lines bodies,
    NoDup headers /\ (forall g, In g headers <-> of_library root build fs g) /\ arranged root build fs headers /\
    fs (main_source root) = Some lines /\ sources root lines srcs /\
    Forall2 (appears fs) (headers ++ srcs) bodies /\ t = whole bodies.
Proof using AR AB.
  unfold script. rewrite main_joined, main_source_joined.
  destruct (add_headers fs root build limit [] (main_header root)) as [(m & hs)|] eqn:E; cbn [andthen]; [|discriminate].
  destruct (headers_spec m hs E) as (l & A & N & I & R). rewrite A. cbn [andthen].
  unfold open_file. destruct (fs (main_source root)) as [lines|] eqn:EM; cbn [andthen]; [|discriminate].
  destruct (add_sources_spec root lines l) as (srcs & SR & ->).
  destruct (write_files fs (length (l ++ srcs)) 0 (l ++ srcs)) as [body|] eqn:W; cbn [andthen]; [|discriminate].
  intros X. injection X as <-. destruct (write_files_spec fs _ _ 0 body eq_refl W) as (bodies & F & ->).
  exists l, srcs, lines, bodies. repeat (split; auto).
Qed.

Theorem succeeds lines srcs :
  present fs (main_header root) -> (forall g, of_library root build fs g -> present fs g) ->
  fs (main_source root) = Some lines -> sources root lines srcs -> (forall f, In f srcs -> present fs f) ->
  (forall l, chain root build fs (main_header root) l -> length l <= limit) ->
  exists t, script fs root build limit = Done t.
Proof using AR AB.
  intros PM PG EM SR PS CH. unfold script. rewrite main_joined, main_source_joined.
  destruct (add_headers fs root build limit [] (main_header root)) as [(m & hs)|e] eqn:E; cbn [andthen].
  2:{ destruct (add_headers_total fs root build AR AB limit [] _ e sound_nil main_absolute (conj PM PG) E) as (_ & l & C & L). apply CH in C. lia. }
  destruct (headers_spec m hs E) as (l & A & N & I & R). rewrite A. cbn [andthen].
  unfold open_file. rewrite EM. cbn [andthen]. destruct (add_sources_spec root lines l) as (srcs' & SR' & ->).
  rewrite <- (sources_once _ _ _ _ SR SR') in *.
  destruct (write_files_total fs (length (l ++ srcs)) (l ++ srcs) 0) as (t & ->); [|cbn [andthen]; eauto].
  intros f H. apply in_app_or in H. destruct H as [H|H]; auto. apply PG. now apply I.
Qed.

Theorem circular g : present fs (main_header root) -> (forall g, of_library root build fs g -> present fs g) ->
  of_library root build fs g -> clos_trans _ (needs root build fs) g g -> script fs root build limit = Raised TooDeep.
Proof using AR AB.
  intros PM PG G CY. unfold script. rewrite main_joined, main_source_joined.
  destruct (add_headers fs root build limit [] (main_header root)) as [(m & hs)|e] eqn:E; cbn [andthen].
  - exfalso. destruct (add_headers_spec fs root build AR AB limit [] _ m hs sound_nil main_absolute E) as (_ & _ & _ & _ & _ & CH).
    destruct (cycle_chains fs root build g (Datatypes.S limit) CY) as (l & C & L). destruct (chain_below fs root build _ _ _ G C) as (l' & C' & L').
    apply CH in C'. lia.
  - now destruct (add_headers_total fs root build AR AB limit [] _ e sound_nil main_absolute (conj PM PG) E) as (-> & _).
Qed.

Lemma add_headers_raised d : forall m f e, add_headers fs root build d m f = Raised e -> e = TooDeep \/ e = NoSuchFile.
Proof.
  induction d as [|d IH]; intros m f e E; cbn [add_headers] in E; [left; congruence|].
  unfold open_file in E. destruct (fs f) as [lines|]; cbn [andthen] in E; [|right; congruence].
  revert m E. generalize (@nil str). induction lines as [|x lines IL]; intros hs m E; cbn [add_lines] in E; [discriminate|].
  destruct (search_include _ _ x) as [n|]; [|eauto]. destruct (negb (member m n)); [|eauto].
  destruct (add_headers fs root build d m (child_header root build n)) as [(m1 & h1)|e1] eqn:A; cbn [andthen] in E; [eauto|].
  injection E as <-. eauto.
Qed.

Theorem never_reported e : script fs root build limit = Raised e -> e = TooDeep \/ e = NoSuchFile.
Proof using AR AB.
  unfold script. rewrite main_joined, main_source_joined.
  destruct (add_headers fs root build limit [] (main_header root)) as [(m & hs)|e'] eqn:E; cbn [andthen].
  2:{ intros X. injection X as <-. eapply add_headers_raised; eauto. }
  destruct (headers_spec m hs E) as (l & A & _). rewrite A. cbn [andthen].
  unfold open_file. destruct (fs (main_source root)) as [lines|]; cbn [andthen]; [|intros X; injection X as <-; auto].
  destruct (write_files fs _ 0 (add_sources root lines l)) as [b|e'] eqn:W; cbn [andthen]; [discriminate|].
  intros X. injection X as <-. right. eapply write_files_raised; eauto.
Qed.
End Whole.

(** ** Guards *)
Lemma occurs_cons c p s : occurs p s -> occurs p (c :: s).
Proof. intros (a & b & ->). now exists (c :: a), b. Qed.
Lemma prefix_without (p l b y : text) (c : ascii) : ~ In c p -> l ++ c :: b = p ++ y -> exists r, l = p ++ r.
Proof.
  revert l. induction p as [|z p IH]; intros l NI E; [exists l; reflexivity|].
  destruct l as [|w l]; cbn in E; injection E as -> E.
  - exfalso. apply NI. now left.
  - destruct (IH l) as (r & ->); [intros H; apply NI; now right|exact E|]. exists r. reflexivity.
Qed.
Lemma occurs_split (p a b : text) (c : ascii) : ~ In c p -> occurs p (a ++ [c] ++ b) -> occurs p a \/ occurs p b.
Proof.
  intros NI (x & y & E). revert x E. induction a as [|d a IH]; intros x E.
  - cbn in E. destruct x as [|e x].
    + destruct p as [|z p]. { right. exists [], b. reflexivity. } cbn in E. injection E as -> _. exfalso. apply NI. now left.
    + injection E as _ ->. right. exists x, y. reflexivity.
  - destruct x as [|e x].
    + cbn in E. left.
      destruct (prefix_without p (d :: a) b y c NI E) as (r & R).
      exists [], r. exact R.
    + injection E as -> E. destruct (IH x E) as [O|O]; auto. left. now apply occurs_cons.
Qed.
Lemma occurs_within p d n : ~ In "/"%char p -> occurs p (within d n) -> occurs p d \/ occurs p n.
Proof.
  intros NI. unfold within. destruct (rev d) as [|c l] eqn:E; [auto|].
  destruct (Ascii.eqb_spec c "/"%char) as [->|N].
  - apply (f_equal (@rev _)) in E. rewrite rev_involutive in E. cbn [rev] in E. subst d. rewrite <- app_assoc. intros O.
    apply occurs_split in O; auto. destruct O as [O|O]; auto. left. destruct O as (a & b & ->). exists a, (b ++ ["/"%char]). now rewrite <- !app_assoc.
  - intros O. apply (occurs_split p d n "/"%char) in O; auto.
Qed.

Theorem unguarded root build fs g : ~ occurs (quote ".cpp") root -> ~ occurs (quote ".cpp") build ->
  (forall f lines line name, fs f = Some lines -> In line lines -> header_name line name -> ~ occurs (quote ".cpp") name) ->
  of_library root build fs g -> ~ occurs (quote ".cpp") g.
Proof.
  intros NR NB NN G O.
  assert (exists f, needs root build fs f g) as (f & lines & line & name & EF & I & H & L).
  { unfold of_library in G. apply clos_trans_tn1 in G. destruct G; eauto. }
  specialize (NN f lines line name EF I H).
  assert (NS : ~ In "/"%char (quote ".cpp")) by (cbn; intuition discriminate).
  destruct L as [(_ & ->)|(_ & ->)]; apply occurs_within in O; auto; destruct O as [O|O]; auto.
  apply occurs_within in O; auto. destruct O as [O|O]; auto.
  revert O. change (~ occurs (quote ".cpp") (quote "include")). intros (a & b & E).
  apply (f_equal (fun l => existsb (Ascii.eqb "."%char) l)) in E. rewrite !existsb_app in E. cbn in E. rewrite orb_true_r in E. discriminate.
Qed.

Lemma occurs_directory p d n : occurs p d -> occurs p (within d n).
Proof.
  intros (a & b & E). unfold within. destruct (rev d) as [|c l] eqn:R.
  - apply (f_equal (@rev _)) in R. rewrite rev_involutive in R. cbn in R. rewrite R in E. symmetry in E. apply app_eq_nil in E. destruct E as (_ & E).
    apply app_eq_nil in E. destruct E as (-> & _). exists [], n. reflexivity.
  - destruct (Ascii.eqb c "/"%char); rewrite E; eexists a, _; rewrite <- !app_assoc; reflexivity.
Qed.
Theorem guarded_headers root build fs g : occurs (quote ".cpp") root -> of_library root build fs g ->
  (exists name, located root build name g /\ ~ occurs (quote "snitch_config.hpp") name) -> occurs (quote ".cpp") g.
Proof.
  intros O _ (name & [(X & _)|(_ & ->)] & N); [contradiction|]. now do 2 apply occurs_directory.
Qed.
