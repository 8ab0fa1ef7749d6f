(** Model of the tag parser, the test filters and the selection/registration of test cases
    (src/snitch_registry.cpp:17-299, 351-389, 706-912, 1073-1118). *)
From Verif.Model Require Import Base Vector StringUtil Print.
From Verif.Spec Require Import PrintSpec.

(** ** Tags *)

(** The [while] loop of [for_each_raw_tag], src/snitch_registry.cpp:31-38; the result is the sequence of
    callback arguments, line 40 included. *)
Fixpoint raw_tag_loop (fuel : nat) (s : str) (pos : option nat) (last_pos : nat) : res (list str) :=
  match pos with
  | None => Ok [skipn last_pos s]
  | Some p =>
    match fuel with
    | 0 => Err Fuel
    | S fuel' =>
      do cur_size <- csub p last_pos ;;
      do rest <- raw_tag_loop fuel' s (find_from s (lit "][") (p + 1)) (p + 1) ;;
      Ok (if cur_size =? 0 then rest else substr s last_pos (cur_size + 1) :: rest)
    end
  end.

Definition open_bracket : ascii := "["%char.
Definition close_bracket : ascii := "]"%char.

(** [s.find_first_of(c)] for one character. *)
Definition find_char (s : str) (c : ascii) : option nat := find_if (aeqb c) s.

(** src/snitch_registry.cpp:17-41 [for_each_raw_tag]. *)
Definition for_each_raw_tag (s : str) : res (list str) :=
  match s with
  | [] => Ok []
  | _ =>
    match find_char s open_bracket, find_char s close_bracket with
    | Some _, Some _ => raw_tag_loop (length s) s (find_from s (lit "][") 0) 0
    | _, _ => Err Assert
    end
  end.

(** src/snitch_registry.cpp:44-48 [parsed_tag]. The flag of [Visible] tells whether the view points into the
    local [buffer] of [for_each_tag] (line 72), which dies when [for_each_tag] returns. *)
Inductive parsed_tag := Visible (s : str) (local : bool) | Hidden | MayFail | ShouldFail.

(** The callback of [for_each_tag], src/snitch_registry.cpp:57-85, on one raw tag. The buffer is cleared before
    each use, so only its capacity [max_tag_length] matters. *)
Definition parse_tag (max_tag_length : nat) (t : str) : res (list parsed_tag) :=
  do (pre, t1, local) <-
    (if seqb t (lit "[.]") then Ok ([Hidden], t, false)
     else if starts_with t (lit "[.") then
       do (buffer, fits) <- append_all (new_string max_tag_length) [lit "["; skipn 2 t] ;;
       if fits : bool then Ok ([Hidden; Visible (lit "[.]") false], vcontent buffer, true) else Err Assert
     else Ok ([], t, false)) ;;
  Ok (pre ++ (if seqb t1 (lit "[!mayfail]") then [MayFail] else [])
          ++ (if seqb t1 (lit "[!shouldfail]") then [ShouldFail] else [])
          ++ [Visible t1 local]).

(** Callbacks in sequence; an assertion stops everything. *)
Fixpoint concat_res {A B} (f : A -> res (list B)) (l : list A) : res (list B) :=
  match l with
  | [] => Ok []
  | x :: l' => do y <- f x ;; do ys <- concat_res f l' ;; Ok (y ++ ys)
  end.

(** src/snitch_registry.cpp:53-86 [for_each_tag]: the sequence of callback arguments. *)
Definition for_each_tag (max_tag_length : nat) (s : str) : res (list parsed_tag) :=
  do raw <- for_each_raw_tag s ;; concat_res (parse_tag max_tag_length) raw.

Definition is_hidden (t : parsed_tag) : bool := match t with Hidden => true | _ => false end.
Definition is_may_fail (t : parsed_tag) : bool := match t with MayFail => true | _ => false end.
Definition is_should_fail (t : parsed_tag) : bool := match t with ShouldFail => true | _ => false end.

(** src/snitch_registry.cpp:89-98 [has_hidden_tag]. *)
Definition has_hidden_tag (max_tag_length : nat) (tags : str) : res bool :=
  do l <- for_each_tag max_tag_length tags ;; Ok (existsb is_hidden l).

(** src/snitch_registry.cpp:590-599 (in [registry::run]): the [may_fail] and [should_fail] flags of a test. *)
Definition fail_flags (max_tag_length : nat) (tags : str) : res (bool * bool) :=
  do l <- for_each_tag max_tag_length tags ;; Ok (existsb is_may_fail l, existsb is_should_fail l).

(** ** Filters *)

(** include/snitch/snitch_registry.hpp:74-77 [filter_result]. *)
Record filter_result := mkfr { included : bool; implicit : bool }.

(** src/snitch_registry.cpp:161-172 [filter_result_and]. *)
Definition filter_result_and (first second : filter_result) : filter_result :=
  if negb (included first) && included second then first
  else if included first && negb (included second) then second
  else if negb (implicit first) then first
  else second.

(** src/snitch_registry.cpp:174-185 [filter_result_or]. *)
Definition filter_result_or (first second : filter_result) : filter_result :=
  if included first && negb (included second) then first
  else if negb (included first) && included second then second
  else if negb (implicit first) then first
  else second.

Definition tilde : ascii := "~"%char.

(** Lines 188-193 = 199-204: the two actions and the filter without its [~]. *)
Definition filter_actions (filter : str) : filter_result * filter_result * str :=
  match filter with
  | c :: filter' =>
    if aeqb c tilde then (mkfr false false, mkfr true true, filter')
    else (mkfr true false, mkfr false true, filter)
  | [] => (mkfr true false, mkfr false true, filter)
  end.

(** src/snitch_registry.cpp:187-196 [is_filter_match_name]. *)
Definition is_filter_match_name (name filter : str) : filter_result :=
  let '(match_action, no_match_action, f) := filter_actions filter in
  if is_match name f then match_action else no_match_action.

Definition visible_matches (f : str) (t : parsed_tag) : bool :=
  match t with Visible s _ => is_match s f | _ => false end.

(** src/snitch_registry.cpp:198-216 [is_filter_match_tags_single]. *)
Definition is_filter_match_tags_single (mt : nat) (tags filter : str) : res filter_result :=
  let '(match_action, no_match_action, f) := filter_actions filter in
  do l <- for_each_tag mt tags ;;
  Ok (if existsb (visible_matches f) l then match_action else no_match_action).

Definition combine (f : filter_result -> filter_result -> filter_result) (result : option filter_result)
  (sub_result : filter_result) : filter_result :=
  match result with None => sub_result | Some r => f r sub_result end.

(** The [do] loop of [is_filter_match_tags], src/snitch_registry.cpp:224-250. [filter.substr(0, npos)] is the
    whole filter. *)
Fixpoint tags_loop (fuel mt : nat) (tags filter : str) (result : option filter_result) : res filter_result :=
  match fuel with
  | 0 => Err Fuel
  | S fuel' =>
    let end_pos := match find_first_not_escaped filter close_bracket with Some p => Some (S p) | None => None end in
    do sub_result <- is_filter_match_tags_single mt tags
                       (match end_pos with Some p => firstn p filter | None => filter end) ;;
    let r := combine filter_result_and result sub_result in
    if negb (included r) then Ok r
    else match end_pos with
         | None => Ok r
         | Some p => match skipn p filter with
                     | [] => Ok r
                     | filter' => tags_loop fuel' mt tags filter' (Some r)
                     end
         end
  end.

(** src/snitch_registry.cpp:218-253 [is_filter_match_tags]. *)
Definition is_filter_match_tags (mt : nat) (tags filter : str) : res filter_result :=
  tags_loop (S (length filter)) mt tags filter None.

(** src/snitch_registry.cpp:255-263 [is_filter_match_id_single]. *)
Definition is_filter_match_id_single (mt : nat) (name tags filter : str) : res filter_result :=
  if starts_with filter (lit "[") || starts_with filter (lit "~[")
  then is_filter_match_tags mt tags filter
  else Ok (is_filter_match_name name filter).

Definition comma : ascii := ","%char.

(** The [do] loop of [is_filter_match_id], src/snitch_registry.cpp:272-296. *)
Fixpoint id_loop (fuel mt : nat) (name tags filter : str) (result : option filter_result) : res filter_result :=
  match fuel with
  | 0 => Err Fuel
  | S fuel' =>
    let comma_pos := find_first_not_escaped filter comma in
    do sub_result <- is_filter_match_id_single mt name tags
                       (match comma_pos with Some p => firstn p filter | None => filter end) ;;
    let r := combine filter_result_or result sub_result in
    if included r && negb (implicit r) then Ok r
    else match comma_pos with
         | None => Ok r
         | Some p => id_loop fuel' mt name tags (skipn (S p) filter) (Some r)
         end
  end.

(** src/snitch_registry.cpp:265-299 [is_filter_match_id]. *)
Definition is_filter_match_id (mt : nat) (name tags filter : str) : res filter_result :=
  id_loop (S (length filter)) mt name tags filter None.

(** ** Test cases *)

(** include/snitch/snitch_test_data.hpp:25-34 [test_id]. *)
Record test_id := mkid { id_name : str; id_tags : str; id_type : str; id_fixture : str }.

(** src/snitch_registry.cpp:143-157 [make_full_name]; the buffer is cleared first, so only its capacity
    [max_test_name_length] matters. The empty view is returned when the name does not fit. *)
Definition make_full_name (mn : nat) (id : test_id) : res str :=
  do (buffer, fits) <- append_all (new_string mn)
    (match id_type id with
     | [] => [id_name id]
     | _ => [id_name id; lit " <"; id_type id; lit ">"]
     end) ;;
  Ok (if fits : bool then vcontent buffer else []).

(** The [for] loop of the selection lambda, src/snitch_registry.cpp:855-873. *)
Fixpoint cli_loop (mt : nat) (full_name tags : str) (filters : list str) (result : option filter_result)
  : res (option filter_result) :=
  match filters with
  | [] => Ok result
  | f :: filters' =>
    do sub_result <- is_filter_match_id mt full_name tags f ;;
    let r := combine filter_result_and result sub_result in
    if negb (included r) then Ok (Some r) else cli_loop mt full_name tags filters' (Some r)
  end.

(** src/snitch_registry.cpp:850-886: the selection lambda of [run_tests_impl]. Dereferencing an empty optional
    is [UB] (not reachable: line 838 checks that there is a filter). *)
Definition cli_selects (mt mn : nat) (filters : list str) (id : test_id) : res bool :=
  do full_name <- make_full_name mn id ;;
  do result <- cli_loop mt full_name (id_tags id) filters None ;;
  match result with
  | None => Err UB
  | Some r =>
    if included r then
      if negb (implicit r) then Ok true
      else do h <- has_hidden_tag mt (id_tags id) ;; Ok (negb h)
    else Ok false
  end.

(** src/snitch_registry.cpp:807: the selection lambda of [run_tests(std::string_view)]. *)
Definition default_selects (mt : nat) (id : test_id) : res bool :=
  do h <- has_hidden_tag mt (id_tags id) ;; Ok (negb h).

(** ** Registration, src/snitch_registry.cpp:351-377 [add_impl]; the printed error messages are not modelled.
    The test list is a vector, here by its content, with capacity [max_test_cases]. *)
Definition add_test (max_tests mn : nat) (tests : list test_id) (id : test_id) : res (list test_id) :=
  do av <- csub max_tests (length tests) ;;
  if av =? 0 then Err Assert
  else
    let tests1 := tests ++ [id] in
    do full <- make_full_name mn id ;;
    match full with [] => Err Assert | _ => Ok tests1 end.

Fixpoint add_tests (max_tests mn : nat) (tests ids : list test_id) : res (list test_id) :=
  match ids with
  | [] => Ok tests
  | id :: ids' => do tests1 <- add_test max_tests mn tests id ;; add_tests max_tests mn tests1 ids'
  end.

(** ** Listing tags, src/snitch_registry.cpp:1073-1100 [list_all_tags]. *)

(** [std::find(tags.begin(), tags.end(), t)]. Reading a stored view into a dead [for_each_tag] buffer is [UB].
    Simplification: within the same [for_each_tag] call the buffer is still alive; reading it there is
    nevertheless counted as [UB], as the same view is read again after the call anyway (sort, print). *)
Fixpoint stored_find (tags : list (str * bool)) (t : str) : res bool :=
  match tags with
  | [] => Ok false
  | (s, dead) :: tags' =>
    if dead : bool then Err UB else if seqb s t then Ok true else stored_find tags' t
  end.

Fixpoint store_tags (max_unique : nat) (tags : list (str * bool)) (l : list parsed_tag)
  : res (list (str * bool)) :=
  match l with
  | [] => Ok tags
  | Visible s local :: l' =>
    do found <- stored_find tags s ;;
    if found : bool then store_tags max_unique tags l'
    else if length tags =? max_unique then Err Assert
    else store_tags max_unique (tags ++ [(s, local)]) l'
  | _ :: l' => store_tags max_unique tags l'
  end.

Fixpoint store_all_tags (mt max_unique : nat) (tags : list (str * bool)) (tests : list test_id)
  : res (list (str * bool)) :=
  match tests with
  | [] => Ok tags
  | t :: tests' =>
    do l <- for_each_tag mt (id_tags t) ;;
    do tags1 <- store_tags max_unique tags l ;;
    store_all_tags mt max_unique tags1 tests'
  end.

(** [operator<] on [std::string_view] (characters compare as unsigned). *)
Fixpoint sltb (a b : str) : bool :=
  match a, b with
  | [], _ :: _ => true
  | x :: a', y :: b' => (nat_of_ascii x <? nat_of_ascii y) || (aeqb x y && sltb a' b')
  | _, [] => false
  end.

(** [std::sort]: any correct sorting algorithm gives the same result on distinct strings; insertion sort here. *)
Fixpoint insert_sorted (t : str) (l : list str) : list str :=
  match l with
  | [] => [t]
  | x :: l' => if sltb t x then t :: l else x :: insert_sorted t l'
  end.

Definition sort_strings (l : list str) : list str := fold_right insert_sorted [] l.

(** The views read by the sort and by the final loop. *)
Fixpoint read_views (l : list (str * bool)) : res (list str) :=
  match l with
  | [] => Ok []
  | (s, dead) :: l' => if dead : bool then Err UB else do r <- read_views l' ;; Ok (s :: r)
  end.

(** The texts printed, one per [cli::print] call; [mm] is [max_message_length]. *)
Definition list_all_tags (mm mt max_unique : nat) (tests : list test_id) : res (list str) :=
  do stored <- store_all_tags mt max_unique [] tests ;;
  do tags <- read_views stored ;;
  prints mm (map (fun t => [Text (lit "["); Text t; Text (lit "]
")]) (sort_strings tags)).
