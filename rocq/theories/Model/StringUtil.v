(** Model of src/snitch_string_utility.cpp, include/snitch/snitch_string_utility.hpp and of the string
    part of src/snitch_append.cpp / include/snitch/snitch_append.hpp. *)
From Verif.Model Require Import Base Vector.

Definition sstr := vec ascii.

(** src/snitch_append.cpp:74-87 [append_fast(small_string_span, std::string_view)]. *)
Definition append_fast (ss : sstr) (s : str) : res (sstr * bool) :=
  match s with
  | [] => Ok (ss, true)
  | _ =>
    do av <- vavailable ss ;;
    let could_fit := length s <=? av in
    let copy_count := Nat.min (length s) av in
    let offset := vsize ss in
    do ss1 <- vgrow ss copy_count ;;
    do b <- memwrite (vbuf ss1) offset (firstn copy_count s) ;;
    Ok (mkvec b (vsize ss1), could_fit)
  end.

(** The copy loop [for (i = 0; i < copy_count; ++i) ss[offset + i] = str[i]],
    include/snitch/snitch_append.hpp:41-43. *)
Fixpoint copy_loop (ss : sstr) (offset : nat) (s : str) : res sstr :=
  match s with
  | [] => Ok ss
  | c :: s' => do ss1 <- vset ss offset c ;; copy_loop ss1 (S offset) s'
  end.

(** include/snitch/snitch_append.hpp:35-46 [append_constexpr(small_string_span, std::string_view)]. *)
Definition append_constexpr (ss : sstr) (s : str) : res (sstr * bool) :=
  do av <- vavailable ss ;;
  let could_fit := length s <=? av in
  let copy_count := if could_fit then length s else av in
  let offset := vsize ss in
  do ss1 <- vgrow ss copy_count ;;
  do ss2 <- copy_loop ss1 offset (firstn copy_count s) ;;
  Ok (ss2, could_fit).

(** include/snitch/snitch_append.hpp:281-287 [append(small_string_span, std::string_view)] at run time. *)
Definition append (ss : sstr) (s : str) : res (sstr * bool) := append_fast ss s.

(** include/snitch/snitch_append.hpp:378-382: the variadic [append], a fold with [&&] (stops at the first
    argument that does not fit). Arguments are the texts of the appended values. *)
Fixpoint append_all (ss : sstr) (l : list str) : res (sstr * bool) :=
  match l with
  | [] => Ok (ss, true)
  | s :: l' =>
    do (ss1, ok) <- append ss s ;;
    if ok then append_all ss1 l' else Ok (ss1, false)
  end.

Definition dot : ascii := "."%char.

(** The loop of [truncate_end], include/snitch/snitch_string_utility.hpp:24-26. *)
Fixpoint put_dots (ss : sstr) (offset n : nat) : res sstr :=
  match n with
  | 0 => Ok ss
  | S n' => do ss1 <- vset ss offset dot ;; put_dots ss1 (S offset) n'
  end.

(** include/snitch/snitch_string_utility.hpp:13-27 [truncate_end]. *)
Definition truncate_end (ss : sstr) : res sstr :=
  let final0 := vsize ss + 3 in
  let final := if vcap ss <? final0 then vcap ss else final0 in
  let offset := if 3 <=? final then final - 3 else 0 in
  do dots <- csub final offset ;;
  do ss1 <- vresize ss final ;;
  put_dots ss1 offset dots.

(** include/snitch/snitch_string_utility.hpp:29-37 [append_or_truncate]. *)
Definition append_or_truncate (ss : sstr) (l : list str) : res (sstr * bool) :=
  do (ss1, ok) <- append_all ss l ;;
  if ok then Ok (ss1, true)
  else do ss2 <- truncate_end ss1 ;; Ok (ss2, false).

(** Value-initialised characters ([std::array<char, N> data_buffer = {}], snitch_string.hpp:15). *)
Definition new_string (n : nat) : sstr := vempty zero n.

(** include/snitch/snitch_string.hpp:24-29, the constructor from a string_view: [resize] (may assert), then
    element-wise writes to the buffer. *)
Definition string_from (n : nat) (s : str) : res sstr :=
  do ss <- vresize (new_string n) (length s) ;;
  do b <- memwrite (vbuf ss) 0 s ;;
  Ok (mkvec b (vsize ss)).

(** A string of capacity [n] holding [s] (what [string_from] yields when it does not assert; used in examples). *)
Definition text_in (n : nat) (s : str) : sstr := mkvec (s ++ repeat zero (n - length s)) (length s).

(** What the caller can observe of a string operation: content and returned value (used in examples). *)
Definition shown (x : res (sstr * bool)) : res (str * bool) :=
  do (ss, b) <- x ;; Ok (vcontent ss, b).

(** include/snitch/snitch_string_utility.hpp:39-52 [resize_or_truncate<N, M>(small_string<M>)]. *)
Definition resize_or_truncate (n : nat) (s : sstr) : res sstr :=
  if n =? vcap s then Ok s
  else if vcap s <? n then
    do (out, _) <- append (new_string n) (vcontent s) ;; Ok out
  else
    do (out, _) <- append_or_truncate (new_string n) [vcontent s] ;; Ok out.

(** [sv.find(pattern, pos)] on the current content of the string. *)
Definition sfind (ss : sstr) (pattern : str) (pos : nat) : option nat :=
  find_from (vcontent ss) pattern pos.

(** src/snitch_string_utility.cpp:10-15 [replace_same_size]. *)
Definition replace_same_size (ss : sstr) (pos : nat) (r : str) : res (sstr * nat) :=
  do b <- memwrite (vbuf ss) pos r ;;
  Ok (mkvec b (vsize ss), pos + length r).

(** src/snitch_string_utility.cpp:17-32 [replace_smaller]. *)
Definition replace_smaller (ss : sstr) (char_diff pos : nat) (r : str) : res (sstr * nat) :=
  do b <- rotate (vbuf ss) pos (pos + char_diff) (vsize ss) ;;
  do n <- csub (vsize ss) char_diff ;;
  do ss1 <- vresize (mkvec b (vsize ss)) n ;;
  do b1 <- memwrite (vbuf ss1) pos r ;;
  Ok (mkvec b1 (vsize ss1), pos + length r).

(** src/snitch_string_utility.cpp:34-54 [replace_larger]. *)
Definition replace_larger (ss : sstr) (char_diff pos : nat) (r : str) : res (sstr * nat) :=
  do av <- vavailable ss ;;
  let char_growth := Nat.min char_diff av in
  do ss1 <- vgrow ss char_growth ;;
  do ss2 <-
    (if (char_diff <=? vsize ss1) && (pos <? vsize ss1 - char_diff)
     then do b <- rotate (vbuf ss1) pos (vsize ss1 - char_diff) (vsize ss1) ;; Ok (mkvec b (vsize ss1))
     else Ok ss1) ;;
  do room <- csub (vsize ss2) pos ;;
  let max_chars := Nat.min (length r) room in
  do b <- memwrite (vbuf ss2) pos (firstn max_chars r) ;;
  Ok (mkvec b (vsize ss2), pos + max_chars).

(** The three loops of [replace_all]; [pos] is the result of the last [find]. Each iteration consumes one unit
    of [fuel]; running out of it is the distinct outcome [Fuel]. *)

(** src/snitch_string_utility.cpp:65-71. *)
Fixpoint loop_same (fuel : nat) (ss : sstr) (pattern r : str) (pos : option nat) : res sstr :=
  match pos with
  | None => Ok ss
  | Some p =>
    match fuel with
    | 0 => Err Fuel
    | S fuel' =>
      do (ss1, p1) <- replace_same_size ss p r ;;
      loop_same fuel' ss1 pattern r (sfind ss1 pattern p1)
    end
  end.

(** src/snitch_string_utility.cpp:79-86. *)
Fixpoint loop_smaller (fuel : nat) (ss : sstr) (pattern r : str) (char_diff : nat) (pos : option nat) : res sstr :=
  match pos with
  | None => Ok ss
  | Some p =>
    match fuel with
    | 0 => Err Fuel
    | S fuel' =>
      do (ss1, p1) <- replace_smaller ss char_diff p r ;;
      loop_smaller fuel' ss1 pattern r char_diff (sfind ss1 pattern p1)
    end
  end.

(** src/snitch_string_utility.cpp:95-106. *)
Fixpoint loop_larger (fuel : nat) (ss : sstr) (pattern r : str) (char_diff : nat) (pos : option nat)
    (overflow : bool) : res (sstr * bool) :=
  match pos with
  | None => Ok (ss, overflow)
  | Some p =>
    match fuel with
    | 0 => Err Fuel
    | S fuel' =>
      do av <- vavailable ss ;;
      let overflow1 := if av <? char_diff then true else overflow in
      do (ss1, p1) <- replace_larger ss char_diff p r ;;
      loop_larger fuel' ss1 pattern r char_diff (sfind ss1 pattern p1) overflow1
    end
  end.

(** src/snitch_string_utility.cpp:58-110 [replace_all]. [fuel] bounds the number of replacements performed. *)
Definition replace_all (fuel : nat) (ss : sstr) (pattern r : str) : res (sstr * bool) :=
  if length r =? length pattern then
    do ss1 <- loop_same fuel ss pattern r (sfind ss pattern 0) ;; Ok (ss1, true)
  else if length r <? length pattern then
    do d <- csub (length pattern) (length r) ;;
    do ss1 <- loop_smaller fuel ss pattern r d (sfind ss pattern 0) ;; Ok (ss1, true)
  else
    do d <- csub (length r) (length pattern) ;;
    do (ss1, overflow) <- loop_larger fuel ss pattern r d (sfind ss pattern 0) false ;;
    Ok (ss1, negb overflow).

(** src/snitch_string_utility.cpp:127-146, the loop of [escape_all_or_truncate]
    (state: [pos], [last_full_pos], [overflow]). *)
Fixpoint loop_escape (fuel : nat) (ss : sstr) (pattern r : str) (char_diff : nat) (pos : option nat)
    (last_full_pos : nat) (overflow : bool) : res (sstr * nat * bool) :=
  match pos with
  | None => Ok (ss, last_full_pos, overflow)
  | Some p =>
    match fuel with
    | 0 => Err Fuel
    | S fuel' =>
      do room <- csub (vcap ss) p ;;
      let lfp1 := if 3 <=? room then p else last_full_pos in
      do av <- vavailable ss ;;
      let overflow1 := if av <? char_diff then true else overflow in
      do (ss1, p1) <- replace_larger ss char_diff p r ;;
      do room1 <- csub (vcap ss1) p1 ;;
      let lfp2 := if 3 <=? room1 then p1 else lfp1 in
      loop_escape fuel' ss1 pattern r char_diff (sfind ss1 pattern p1) lfp2 overflow1
    end
  end.

(** src/snitch_string_utility.cpp:112-156 [escape_all_or_truncate]. *)
Definition escape_all_or_truncate (fuel : nat) (ss : sstr) (pattern r : str) : res (sstr * bool) :=
  if length r <=? length pattern then Err Assert
  else
    do d <- csub (length r) (length pattern) ;;
    do (ss1, lfp, overflow) <-
      loop_escape fuel ss pattern r d (sfind ss pattern 0) (length (vcontent ss)) false ;;
    if overflow : bool then
      do ss2 <- vresize ss1 lfp ;;
      do ss3 <- truncate_end ss2 ;;
      Ok (ss3, false)
    else Ok (ss1, true).

Definition backslash : ascii := "\"%char.
Definition star : ascii := "*"%char.

(** src/snitch_string_utility.cpp:158-177 [find_first_not_escaped]; the loop index [i] is the offset of the
    argument in the original string. *)
Fixpoint ffne (s : str) (c : ascii) (i : nat) : option nat :=
  match s with
  | [] => None
  | x :: s' =>
    if aeqb x backslash then
      match s' with
      | [] => None
      | _ :: s'' => ffne s'' c (S (S i))
      end
    else if aeqb x c then Some i else ffne s' c (S i)
  end.

Definition find_first_not_escaped (s : str) (c : ascii) : option nat := ffne s c 0.

(** src/snitch_string_utility.cpp:224-228: the suffix loop [for (o = 0; o < remaining; ++o)] over the
    non-empty suffixes of the remaining string. *)
Fixpoint any_suffix (f : str -> bool) (s : str) : bool :=
  match s with
  | [] => false
  | _ :: s' => if f s then true else any_suffix f s'
  end.

(** [regex.find_first_not_of('*') == npos]. *)
Definition only_stars (re : str) : bool := forallb (fun c => aeqb c star) re.

(** src/snitch_string_utility.cpp:190-240: the loop over the regex, on the part of the regex and of the
    string not yet read. The recursive call [is_match(string.substr(js + o), regex)] is on a strictly shorter
    regex, which is non-empty there (line 208), so the early exit of line 183 does not apply to it. *)
Fixpoint match_loop (re s : str) {struct re} : bool :=
  match re with
  | [] => match s with [] => true | _ => false end
  | x :: re' =>
    if aeqb x backslash then
      match re' with
      | [] => false
      | y :: re'' =>
        match s with
        | c :: s' => if aeqb y c then match_loop re'' s' else false
        | [] => false
        end
      end
    else if aeqb x star then
      match re' with
      | [] => true
      | _ =>
        match s with
        | [] => only_stars re'
        | _ => any_suffix (match_loop re') s
        end
      end
    else
      match s with
      | c :: s' => if aeqb x c then match_loop re' s' else false
      | [] => false
      end
  end.

(** src/snitch_string_utility.cpp:179-241 [is_match]. *)
Definition is_match (s re : str) : bool :=
  match re with [] => true | _ => match_loop re s end.
