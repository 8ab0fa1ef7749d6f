(** Model of src/snitch_capture.cpp:8-20, 36-82 and include/snitch/snitch_capture.hpp:27-47: the labels of captured
    expressions. (The list of active captures and its scopes are in Model/Run.v.) *)
From Verif.Model Require Import Base.

(** [s.find_first_of(set, pos)], for [pos <= s.size()]. *)
Definition find_set (set : str) (s : str) (pos : nat) : option nat :=
  match find_if (fun c => existsb (aeqb c) set) (skipn pos s) with Some n => Some (pos + n) | None => None end.

(** src/snitch_capture.cpp:8-20 [trim]. *)
Definition trim (s patterns : str) : str :=
  let keep c := negb (existsb (aeqb c) patterns) in
  match find_if keep s with
  | None => s
  | Some start =>
    let s := skipn start s in
    match find_last_if keep s with Some e => firstn (length s - (length s - e - 1)) s | None => s end
  end.

(** The blanks [" \t\n\r"]. *)
Definition blanks : str := [" "%char; ascii_of_nat 9; ascii_of_nat 10; ascii_of_nat 13].
(** The characters [find_first_of] looks for, 39 and 76 (the quotes are given twice there). *)
Definition marks : str := [","%char; "("%char; ")"%char; ascii_of_nat 34; ascii_of_nat 34; ascii_of_nat 39; ascii_of_nat 39].

(** 44-77: the loop; the position of the comma that ends the name, if any. [parens] is an [int]: overflow is undefined
    behaviour. *)
Fixpoint name_loop (n : nat) (names : str) (pos : option nat) (in_string in_char : bool) (parens : Z) : res (option nat) :=
  match n with
  | 0 => Err Fuel
  | S n' =>
    match pos with
    | None => Ok None
    | Some p =>
      match nth_error names p with
      | None => Err UB
      | Some c =>
        let next := name_loop n' names (find_set marks names (p + 1)) in
        if aeqb c (ascii_of_nat 34) then next (if in_char then in_string else negb in_string) in_char parens
        else if aeqb c (ascii_of_nat 39) then next in_string (if in_string then in_char else negb in_char) parens
        else if aeqb c "("%char then
          if negb in_string && negb in_char then
            if (parens =? 2147483647)%Z then Err UB else next in_string in_char (parens + 1)%Z
          else next in_string in_char parens
        else if aeqb c ")"%char then
          if negb in_string && negb in_char then
            if (parens =? -2147483648)%Z then Err UB else next in_string in_char (parens - 1)%Z
          else next in_string in_char parens
        else if aeqb c ","%char then
          if negb in_string && negb in_char && (parens =? 0)%Z then Ok (Some p) else next in_string in_char parens
        else next in_string in_char parens
      end
    end
  end.

(** 36-82 [extract_next_name]: the name and the names that remain. The loop makes one step per character at most. *)
Definition extract_next_name (names : str) : res (str * str) :=
  do pos <- name_loop (S (length names)) names (find_set marks names 0) false false 0%Z ;;
  match pos with
  | Some p => Ok (trim (firstn p names) blanks, skipn (p + 1) names)
  | None => Ok (trim names blanks, [])
  end.

(** include/snitch/snitch_capture.hpp:27-41 [add_captures]: the texts appended to the captures, given the source text of
    the arguments and the texts their values are turned into. *)
Fixpoint capture_texts (names : str) (values : list str) : res (list (list str)) :=
  match values with
  | [] => Ok []
  | v :: values' =>
    do (name, names') <- extract_next_name names ;;
    do rest <- capture_texts names' values' ;;
    Ok ([name; lit " := "; v] :: rest)
  end.
