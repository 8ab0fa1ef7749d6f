(** The cost of matching (C98). *)
From Coq Require Import Lia.
From Verif.Spec Require Import TextSpec CostSpec.
From Verif.Model Require Import Base StringUtil Cost.

(** ** The same outcome *)
Lemma suffixes_outcome call f s : (forall x, outcome (call x) = f x) -> outcome (counted_suffixes call s) = any_suffix f s.
Proof. intros H. induction s as [|c s IH]; [reflexivity|]. cbn [counted_suffixes any_suffix]. rewrite <- H. destruct (outcome (call (c :: s))); cbn [outcome orb]; auto. Qed.

Lemma str_ind2 (P : str -> Prop) : P [] -> (forall c, P [c]) -> (forall c d s, P s -> P (d :: s) -> P (c :: d :: s)) -> forall s, P s.
Proof. intros H0 H1 H2 s. enough (P s /\ forall c, P (c :: s)) by tauto. induction s as [|d s (A & B)]; [auto|]. split; [apply B|]. intros c. apply H2; [exact A|apply B]. Qed.

Lemma loop_outcome re : forall s, outcome (counted_loop re s) = match_loop re s.
Proof.
  induction re as [|x|x y re IH2 IH] using str_ind2; intros s.
  - reflexivity.
  - cbn. destruct (aeqb x backslash); [reflexivity|]. destruct (aeqb x star); [reflexivity|]. destruct s as [|c s]; [reflexivity|]. destruct (aeqb x c); [|reflexivity]. now destruct s.
  - change (counted_loop (x :: y :: re) s) with
      (if aeqb x backslash then match s with c :: s' => if aeqb y c then once (counted_loop re s') else mkcounted false 1 0 | [] => mkcounted false 1 0 end
       else if aeqb x star then match s with [] => mkcounted (only_stars (y :: re)) (S (read_stars (y :: re))) 0 | _ => once (counted_suffixes (counted_loop (y :: re)) s) end
       else match s with c :: s' => if aeqb x c then once (counted_loop (y :: re) s') else mkcounted false 1 0 | [] => mkcounted false 1 0 end).
    change (match_loop (x :: y :: re) s) with
      (if aeqb x backslash then match s with c :: s' => if aeqb y c then match_loop re s' else false | [] => false end
       else if aeqb x star then match s with [] => only_stars (y :: re) | _ => any_suffix (match_loop (y :: re)) s end
       else match s with c :: s' => if aeqb x c then match_loop (y :: re) s' else false | [] => false end).
    destruct (aeqb x backslash); [destruct s as [|c s]; [reflexivity|]; destruct (aeqb y c); [apply IH2|reflexivity]|].
    destruct (aeqb x star); [destruct s as [|c s]; [reflexivity|]; cbn [once outcome]; now apply suffixes_outcome|].
    destruct s as [|c s]; [reflexivity|]. destruct (aeqb x c); [apply IH|reflexivity].
Qed.
Theorem same_outcome s re : outcome (counted_match s re) = is_match s re.
Proof. unfold counted_match, is_match. destruct re; [reflexivity|apply loop_outcome]. Qed.

(** ** Upper bounds *)
Lemma suffixes_cost call s b d : (forall x, length x <= length s -> iterations (call x) <= b /\ nesting (call x) <= d) ->
  iterations (counted_suffixes call s) <= length s * S b /\ nesting (counted_suffixes call s) <= S d.
Proof.
  induction s as [|c s IH]; intros H; [cbn; lia|]. cbn [counted_suffixes]. destruct (H (c :: s) (le_n _)) as (A & B).
  destruct (outcome (call (c :: s))); cbn [iterations nesting length].
  - split; [|lia]. assert (0 <= length s * S b) by lia. cbn [Nat.mul]. lia.
  - destruct IH as (C & D). { intros x L. apply H. cbn. lia. } split; [cbn [Nat.mul]; lia|lia].
Qed.
Lemma read_stars_le re : read_stars re <= length re.
Proof. induction re as [|c re IH]; [auto|]. cbn [read_stars length]. destruct (aeqb c star); lia. Qed.

Lemma loop_cost re : forall s n, length s <= n -> iterations (counted_loop re s) <= S (length re) * S n ^ wildcards re /\ nesting (counted_loop re s) <= wildcards re.
Proof.
  assert (POS : forall n k, 1 <= S n ^ k) by (intros n k; induction k; cbn [Nat.pow]; nia).
  induction re as [|x|x y re IH2 IH] using str_ind2; intros s n L.
  - cbn. lia.
  - cbn [counted_loop wildcards]. change (aeqb x backslash) with (Ascii.eqb x "\"%char). change (aeqb x star) with (Ascii.eqb x "*"%char).
    pose proof (POS n (match length (@nil ascii) with _ => 1 end)). destruct (Ascii.eqb x "\"%char); [cbn; lia|]. destruct (Ascii.eqb x "*"%char); [cbn; lia|].
    destruct s as [|c s]; [cbn; lia|]. destruct (aeqb x c); cbn; lia.
  - change (counted_loop (x :: y :: re) s) with
      (if aeqb x backslash then match s with c :: s' => if aeqb y c then once (counted_loop re s') else mkcounted false 1 0 | [] => mkcounted false 1 0 end
       else if aeqb x star then match s with [] => mkcounted (only_stars (y :: re)) (S (read_stars (y :: re))) 0 | _ => once (counted_suffixes (counted_loop (y :: re)) s) end
       else match s with c :: s' => if aeqb x c then once (counted_loop (y :: re) s') else mkcounted false 1 0 | [] => mkcounted false 1 0 end).
    change (wildcards (x :: y :: re)) with (if Ascii.eqb x "\"%char then wildcards re else (if Ascii.eqb x "*"%char then 1 else 0) + wildcards (y :: re)).
    change (aeqb x backslash) with (Ascii.eqb x "\"%char). change (aeqb x star) with (Ascii.eqb x "*"%char).
    set (k := wildcards (y :: re)) in *. change (length (x :: y :: re)) with (S (length (y :: re))). pose proof (POS n k) as PK. pose proof (POS n (wildcards re)) as PW.
    destruct (Ascii.eqb x "\"%char).
    { cbn [length]. destruct s as [|c s]; [cbn [iterations nesting]; nia|]. destruct (aeqb y c); [|cbn [iterations nesting]; nia]. cbn [once iterations nesting]. destruct (IH2 s n) as (A & B); [cbn in L; lia|]. split; [nia|lia]. }
    set (m := length (y :: re)) in *. destruct (Ascii.eqb x "*"%char).
    + destruct s as [|c s]. { cbn [iterations nesting]. pose proof (read_stars_le (y :: re)) as R. fold m in R. cbn [Nat.add Nat.pow]. split; [nia|lia]. }
      cbn [once iterations nesting]. destruct (suffixes_cost (counted_loop (y :: re)) (c :: s) (S m * S n ^ k) k) as (A & B). { intros z Lz. apply IH. lia. }
      split; [|cbn [Nat.add]; lia]. change (S n ^ (1 + k)) with (S n * S n ^ k). set (P := S n ^ k) in *. set (q := length (c :: s)) in *. clearbody P q m. assert (Q : q * S (S m * P) <= n * S (S m * P)) by (apply Nat.mul_le_mono_r; lia).
      replace (S (S m) * (S n * P)) with (n * (S m * P) + S m * P + S n * P) by ring. set (W := S m * P) in *. assert (S n <= S n * P) by nia. replace (n * S W) with (n + n * W) in Q by ring. lia.
    + destruct s as [|c s]; [cbn [iterations nesting]; cbn [Nat.add]; split; [nia|lia]|]. destruct (aeqb x c); [|cbn [iterations nesting Nat.add]; split; [nia|lia]]. cbn [once iterations nesting Nat.add]. destruct (IH s n) as (A & B); [cbn in L; lia|]. fold m k in A, B. split; [nia|lia].
Qed.
Theorem match_cost s re : iterations (counted_match s re) <= S (length re) * S (length s) ^ wildcards re /\ nesting (counted_match s re) <= wildcards re.
Proof. unfold counted_match. destruct re as [|x re]; [cbn; lia|]. now apply loop_cost. Qed.

(** ** A lower bound *)
Definition hard (k : nat) : str := concat (repeat (lit "*a") k) ++ lit "b".
Lemma hard_S k : hard (S k) = star :: "a"%char :: hard k.
Proof. reflexivity. Qed.
Lemma hard_nonempty k : exists c l, hard k = c :: l.
Proof. destruct k; [exists "b"%char, []; reflexivity|rewrite hard_S; eauto]. Qed.
Lemma a_step re n : counted_loop ("a"%char :: re) (repeat "a"%char (S n)) = once (counted_loop re (repeat "a"%char n)).
Proof. reflexivity. Qed.
Lemma star_step re n : counted_loop (star :: "a"%char :: re) (repeat "a"%char (S n)) = once (counted_suffixes (counted_loop ("a"%char :: re)) (repeat "a"%char (S n))).
Proof. reflexivity. Qed.
Lemma hard_fails k : forall n, outcome (counted_loop (hard k) (repeat "a"%char n)) = false.
Proof.
  induction k as [|k IH]; intros n; [now destruct n|]. destruct n as [|n]. { rewrite hard_S. cbn [repeat]. destruct (hard_nonempty k) as (c & l & ->). reflexivity. }
  rewrite hard_S, star_step. cbn [once outcome]. generalize (S n). clear n. induction n as [|n IHn]; [reflexivity|]. cbn [repeat counted_suffixes]. change ("a"%char :: repeat "a"%char n) with (repeat "a"%char (S n)). rewrite a_step. cbn [once outcome]. rewrite IH. cbn [outcome]. exact IHn.
Qed.
Lemma suffixes_step k n : iterations (counted_suffixes (counted_loop ("a"%char :: hard k)) (repeat "a"%char (S n))) =
  S (S (iterations (counted_loop (hard k) (repeat "a"%char n)))) + iterations (counted_suffixes (counted_loop ("a"%char :: hard k)) (repeat "a"%char n)).
Proof. cbn [repeat counted_suffixes]. change ("a"%char :: repeat "a"%char n) with (repeat "a"%char (S n)). rewrite a_step. cbn [once outcome iterations]. rewrite hard_fails. cbn [iterations]. reflexivity. Qed.
Lemma hard_cost k : forall n, 2 * k <= n -> 2 ^ k <= iterations (counted_loop (hard k) (repeat "a"%char n)).
Proof.
  induction k as [|k IH]; intros n L; [destruct n; cbn; lia|]. destruct n as [|[|n]]; [lia|lia|]. rewrite hard_S, star_step. cbn [once iterations]. rewrite !suffixes_step. pose proof (IH (S n) ltac:(lia)). pose proof (IH n ltac:(lia)). cbn [Nat.pow]. lia.
Qed.
Lemma hard_length k : length (hard k) = S (2 * k).
Proof. induction k as [|k IH]; [reflexivity|]. rewrite hard_S. cbn [length]. lia. Qed.
Lemma hard_wildcards k : wildcards (hard k) = k.
Proof. induction k as [|k IH]; [reflexivity|]. rewrite hard_S. cbn. now rewrite IH. Qed.
Lemma hard_nesting k : forall n, 2 * k <= n -> k <= nesting (counted_loop (hard k) (repeat "a"%char n)).
Proof.
  induction k as [|k IH]; intros n L; [lia|]. destruct n as [|n]; [lia|]. rewrite hard_S, star_step. cbn [once nesting repeat counted_suffixes].
  change ("a"%char :: repeat "a"%char n) with (repeat "a"%char (S n)). rewrite a_step. cbn [once outcome nesting]. rewrite hard_fails. cbn [nesting].
  pose proof (IH n ltac:(lia)). lia.
Qed.
Theorem exponential k : exists re s, length re = 2 * k + 1 /\ length s = 2 * k /\ wildcards re = k /\ is_match s re = false /\
  2 ^ k <= iterations (counted_match s re) /\ nesting (counted_match s re) = k.
Proof.
  exists (hard k), (repeat "a"%char (2 * k)). rewrite hard_length, repeat_length. split; [lia|]. split; [reflexivity|]. split; [apply hard_wildcards|].
  pose proof (match_cost (repeat "a"%char (2 * k)) (hard k)) as (_ & N). rewrite hard_wildcards in N. rewrite <- same_outcome. unfold counted_match in *.
  destruct (hard_nonempty k) as (c & l & E). rewrite E in N |- *. rewrite <- E in N |- *. split; [apply hard_fails|]. split; [now apply hard_cost|].
  pose proof (hard_nesting k (2 * k) (le_n _)). lia.
Qed.
