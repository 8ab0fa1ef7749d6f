(** Model of make_snitch_all.py, the script that makes one header of the library. Files are lists of lines (with their
    ends, after the translation of line ends that Python does), characters are ASCII. The check of the number of
    arguments (5-7), the creation of directories (17) and the limit on open files (one for each level of 21-41) are not modelled. *)
From Verif.Spec Require Import TextSpec FilterSpec SingleHeaderSpec. (* only for [files] *)
From Verif.Model Require Import Base.

(** How the script ends. [TooDeep] is Python's RecursionError; [OutOfFuel] never happens (it would mean that the loop
    49-57 does not end). *)
Inductive exception := NoSuchFile | TooDeep | Circular | OutOfFuel.
Inductive outcome (A : Type) := Done (a : A) | Raised (e : exception).
Arguments Done {A}.
Arguments Raised {A}.
Definition andthen {A B} (x : outcome A) (f : A -> outcome B) : outcome B :=
  match x with Done a => f a | Raised e => Raised e end.
Notation "'py' x <- a ;; b" := (andthen a (fun x => b)) (at level 200, x pattern, a at level 100, b at level 200).

(** ** Python *)

Definition dquote : ascii := ascii_of_nat 34.
(** [\s] of a regular expression. *)
Definition is_blank (c : ascii) : bool := let n := nat_of_ascii c in ((9 <=? n) && (n <=? 13)) || ((28 <=? n) && (n <=? 32)).
Fixpoint skip_blanks (s : str) : str :=
  match s with
  | [] => []
  | c :: s' => if is_blank c then skip_blanks s' else s
  end.

Definition ends_with (s p : str) : bool := starts_with (rev s) (rev p).

(** A match, at the beginning of [s], of the regular expression made of: a hash, [\s*], the word include, a space, a
    double quote, the group ([p], one or more characters but double quotes, [q]), a double quote. The group is then
    all that is between the double quotes. *)
Definition match_include (p q s : str) : option str :=
  match s with
  | [] => None
  | c :: s1 =>
    if aeqb c "#"%char then
      let s2 := skip_blanks s1 in
      if starts_with s2 (lit "include " ++ [dquote]) then
        let s3 := skipn 9 s2 in
        match find_if (aeqb dquote) s3 with
        | Some n =>
          let group := firstn n s3 in
          if starts_with group p && ends_with group q && (length p + 1 + length q <=? length group) then Some group else None
        | None => None
        end
      else None
    else None
  end.

(** [re.search]: the leftmost match. *)
Fixpoint search_include (p q s : str) : option str :=
  match match_include p q s with
  | Some group => Some group
  | None => match s with [] => None | _ :: s' => search_include p q s' end
  end.

(** [re.match] of the expression of line 82, which has no group: a hash, [\s*], the word include, a space, a double
    quote, the word snitch. *)
Definition match_library (s : str) : bool :=
  match s with
  | [] => false
  | c :: s1 => aeqb c "#"%char && starts_with (skip_blanks s1) (lit "include " ++ [dquote] ++ lit "snitch")
  end.

(** The operator [in] on strings. *)
Definition is_in (p s : str) : bool := match find s p with Some _ => true | None => false end.

(** [os.path.join] of two paths, the second one relative. *)
Definition join (a b : str) : str :=
  match a with
  | [] => b
  | _ => if ends_with a (lit "/") then a ++ b else a ++ lit "/" ++ b
  end.

(** A dictionary: in the order of the first insertion of the keys. *)
Definition dictionary := list (str * list str).
Fixpoint member (m : dictionary) (k : str) : bool :=
  match m with
  | [] => false
  | (k', _) :: m' => seqb k k' || member m' k
  end.
Fixpoint put (m : dictionary) (k : str) (v : list str) : dictionary :=
  match m with
  | [] => [(k, v)]
  | (k', v') :: m' => if seqb k k' then (k', v) :: m' else (k', v') :: put m' k v
  end.
(** The operator [in] on lists. *)
Definition listed (k : str) (l : list str) : bool := existsb (seqb k) l.

(** ** The script *)
Section Script.
Variable fs : files.
Variables root_dir binary_dir : str.
Variable limit : nat.  (** how deep functions may call themselves *)

Definition open_file (f : str) : outcome (list str) :=
  match fs f with Some lines => Done lines | None => Raised NoSuchFile end.

(** make_snitch_all.py:30-35. *)
Definition child_header (include : str) : str :=
  join (if is_in (lit "snitch_config.hpp") include then binary_dir else join root_dir (lit "include")) include.

Section Lines.
Variable add : dictionary -> str -> outcome (dictionary * list str).  (** [add_headers], one level deeper *)
(** 24-39: the loop over the lines. *)
Fixpoint add_lines (m : dictionary) (headers : list str) (lines : list str) : outcome (dictionary * list str) :=
  match lines with
  | [] => Done (m, headers)
  | line :: lines' =>
    match search_include (lit "snitch/snitch_") (lit "hpp") line with
    | None => add_lines m headers lines'
    | Some include =>
      let child := child_header include in
      let headers' := headers ++ [child] in
      if negb (member m include) then
        py (m1, hs) <- add m child ;;
        add_lines (put m1 child hs) headers' lines'
      else add_lines m headers' lines'
    end
  end.
End Lines.

(** 21-41 [add_headers]. *)
Fixpoint add_headers (depth : nat) (m : dictionary) (filename : str) : outcome (dictionary * list str) :=
  match depth with
  | 0 => Raised TooDeep
  | S depth' =>
    py lines <- open_file filename ;;
    add_lines (add_headers depth') m [] lines
  end.

(** 52-54: the loop over the dictionary. *)
Fixpoint pass (m : dictionary) (input_filenames : list str) : list str :=
  match m with
  | [] => input_filenames
  | (include, children) :: m' =>
    pass m' (if negb (listed include input_filenames) && forallb (fun child => listed child input_filenames) children
             then input_filenames ++ [include] else input_filenames)
  end.

(** 49-57. *)
Fixpoint add_others (fuel : nat) (m : dictionary) (input_filenames : list str) : outcome (list str) :=
  if length input_filenames <? length m then
    match fuel with
    | 0 => Raised OutOfFuel
    | S fuel' =>
      let input_filenames' := pass m input_filenames in
      if length input_filenames' =? length input_filenames then Raised Circular
      else add_others fuel' m input_filenames'
    end
  else Done input_filenames.

(** 60-65. *)
Fixpoint add_sources (lines : list str) (input_filenames : list str) : list str :=
  match lines with
  | [] => input_filenames
  | line :: lines' =>
    match search_include (lit "snitch_") (lit "cpp") line with
    | Some file => add_sources lines' (input_filenames ++ [join (join root_dir (lit "src")) file])
    | None => add_sources lines' input_filenames
    end
  end.

Definition newline : str := [ascii_of_nat 10].

(** 79-84. *)
Fixpoint write_lines (lines : list str) : str :=
  match lines with
  | [] => []
  | line :: lines' => if match_library line then write_lines lines' else line ++ write_lines lines'
  end.

(** 73-92: the loop over the files. *)
Fixpoint write_files (total file_count : nat) (input_filenames : list str) : outcome str :=
  match input_filenames with
  | [] => Done []
  | input_filename :: l =>
    let source := is_in (lit ".cpp") input_filename in
    py lines <- open_file input_filename ;;
    py rest <- write_files total (file_count + 1) l ;;
    Done ((if source then lit "#if defined(SNITCH_IMPLEMENTATION)" ++ newline else []) ++
          write_lines lines ++
          (if source then newline ++ lit "#endif" ++ newline else []) ++
          (if negb (file_count + 1 =? total) then newline else []) ++ rest)
  end.

(** 20, 43-46, 60-61, 67-94: what is written to snitch_all.hpp, if all goes well. *)
Definition script : outcome str :=
  py (header_map, _) <- add_headers limit [] (join (join (join root_dir (lit "include")) (lit "snitch")) (lit "snitch.hpp")) ;;
  let leaves := map fst (filter (fun e => length (snd e) =? 0) header_map) in
  py input_filenames <- add_others (length header_map) header_map leaves ;;
  py lines <- open_file (join (join root_dir (lit "src")) (lit "snitch.cpp")) ;;
  let all := add_sources lines input_filenames in
  py body <- write_files (length all) 0 all ;;
  Done (lit "#ifndef SNITCH_ALL_HPP" ++ newline ++ lit "#define SNITCH_ALL_HPP" ++ newline ++ body ++ newline ++ lit "#endif" ++ newline).
End Script.
