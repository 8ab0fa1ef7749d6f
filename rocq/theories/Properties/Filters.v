(** Properties C12-C16, C36, C52: tags, filters, registration. *)
From Verif.Model Require Import Base Vector StringUtil Filter.
From Verif.Spec Require Import TextSpec FilterSpec.
From Verif.Proofs Require Import FilterProofs RegistryProofs ShortcutProofs.
From Coq Require Import Permutation Sorted.

(** C12. Inclusion by a filter is the documented boolean formula; inclusion is explicit iff some non-negated
    filter is responsible for it. No assertion or other error on well-formed tag lists. *)
Theorem C12_name_filter :
  forall (name f : str),
  (included (is_filter_match_name name f) = true <-> name_holds name f) /\
  (name_holds name f -> (implicit (is_filter_match_name name f) = false <-> negated f = false)).
Proof. exact name_filter_spec. Qed.
Print Assumptions C12_name_filter.

Theorem C12_tags_filter :
  forall (mt : nat) (tags : list text) (f : str), well_formed mt tags ->
  exists r, is_filter_match_tags mt (tag_string tags) f = Ok r /\
    (included r = true <-> tags_hold tags f) /\
    (included r = true /\ implicit r = false <-> tags_positively tags f).
Proof. exact tags_filter_spec. Qed.
Print Assumptions C12_tags_filter.

Theorem C12_filter :
  forall (mt : nat) (name : str) (tags : list text) (f : str), well_formed mt tags ->
  exists r, is_filter_match_id mt name (tag_string tags) f = Ok r /\
    (included r = true <-> filter_holds name tags f) /\
    (included r = true /\ implicit r = false <-> filter_positively name tags f).
Proof. exact id_filter_spec. Qed.
Print Assumptions C12_filter.

(** The splittings the formula refers to exist and are unique. *)
Theorem C12_split_commas_unique :
  forall f, exists l, split_commas f l /\ forall l', split_commas f l' -> l = l'.
Proof.
  exact (fun f => match split_commas_exists f with
                  | ex_intro _ l H => ex_intro _ l (conj H (split_commas_unique f l H)) end).
Qed.
Print Assumptions C12_split_commas_unique.

Theorem C12_split_tags_unique :
  forall f, exists l, split_tags f l /\ forall l', split_tags f l' -> l = l'.
Proof.
  exact (fun f => match split_tags_exists f with
                  | ex_intro _ l H => ex_intro _ l (conj H (split_tags_unique f l H)) end).
Qed.
Print Assumptions C12_split_tags_unique.

(** Evaluation order (short-circuits included) is irrelevant. *)
Theorem C12_order_irrelevant :
  forall (mt : nat) (name : str) (tags : list text) (f1 f2 : str) (l1 l2 : list text) (r1 r2 : filter_result),
  well_formed mt tags -> split_commas f1 l1 -> split_commas f2 l2 -> Permutation l1 l2 ->
  is_filter_match_id mt name (tag_string tags) f1 = Ok r1 ->
  is_filter_match_id mt name (tag_string tags) f2 = Ok r2 ->
  included r1 = included r2 /\ (included r1 = true -> implicit r1 = implicit r2).
Proof. exact comma_order_irrelevant. Qed.
Print Assumptions C12_order_irrelevant.

Example C12_example :
  well_formed 5 [quote "x"; quote ".abc"; quote "."; quote "long tag"] /\
  split_commas (lit "a\,b,~[c],") [lit "a\,b"; lit "~[c]"; lit ""] /\
  split_tags (lit "[a\]b]~[c*]") [lit "[a\]b]"; lit "~[c*]"] /\
  is_filter_match_id 5 (lit "a,b") (tag_string [quote "x"; quote ".abc"]) (lit "q*,a\,b") = Ok (mkfr true false) /\
  is_filter_match_id 5 (lit "zz") (tag_string [quote "x"; quote ".abc"]) (lit "q*,~[c]") = Ok (mkfr true true) /\
  is_filter_match_id 5 (lit "zz") (tag_string [quote "x"; quote ".abc"]) (lit "q*,[x]~[abc]") = Ok (mkfr false false) /\
  is_filter_match_id 5 (lit "zz") (tag_string [quote "x"; quote ".abc"]) (lit "[a*][.]~[y]") = Ok (mkfr true false).
Proof.
  split; [exact well_formed_example|]. split; [exact split_example_commas|]. split; [exact split_example_tags|].
  repeat split; vm_compute; reflexivity.
Qed.

(** C13, C14. With at least one filter, a test is selected iff every filter holds and, if it is hidden, it matches
    one of them through a non-negated filter. *)
Theorem C13_cli_selection :
  forall (mt mn : nat) (filters : list str) (id : test_id) (tags : list text),
  id_tags id = tag_string tags -> well_formed mt tags -> filters <> [] ->
  length (full_name_of (id_name id) (id_type id)) <= mn ->
  exists b, cli_selects mt mn filters id = Ok b /\
    (b = true <-> selected (full_name_of (id_name id) (id_type id)) tags filters).
Proof. exact cli_selects_spec. Qed.
Print Assumptions C13_cli_selection.

Theorem C13_order_irrelevant :
  forall (name : text) (tags filters filters' : list text),
  Permutation filters filters' -> (selected name tags filters <-> selected name tags filters').
Proof. exact selected_order. Qed.
Print Assumptions C13_order_irrelevant.

Example C13_example :
  cli_selects 5 20 [lit "a*"; lit "~[y]"] (mkid (lit "ab") (lit "[x][.z]") (lit "int") []) = Ok true /\
  cli_selects 5 20 [lit "~b*"; lit "~[y]"] (mkid (lit "ab") (lit "[x][.z]") (lit "int") []) = Ok false /\
  cli_selects 5 20 [lit "~b*"; lit "~[y]"] (mkid (lit "ab") (lit "[x]") (lit "int") []) = Ok true /\
  cli_selects 5 20 [lit "ab <int>"; lit "[x]"; lit "~ab*"] (mkid (lit "ab") (lit "[x]") (lit "int") []) = Ok false.
Proof. repeat split; vm_compute; reflexivity. Qed.

(** C14. Without filters exactly the tests that are not hidden are selected; filters that are all negations select
    no hidden test. *)
Theorem C14_default_selection :
  forall (mt : nat) (id : test_id) (tags : list text),
  id_tags id = tag_string tags -> well_formed mt tags ->
  exists b, default_selects mt id = Ok b /\ (b = true <-> ~ hidden tags).
Proof. exact default_selects_spec. Qed.
Print Assumptions C14_default_selection.

Theorem C14_hidden_needs_positive_filter :
  forall (name : text) (tags filters : list text),
  hidden tags ->
  Forall (fun f => exists l, split_commas f l /\
            Forall (fun p => if about_tags p then exists k, split_tags p k /\ Forall (fun q => negated q = true) k
                             else negated p = true) l) filters ->
  ~ selected name tags filters.
Proof. exact hidden_needs_positive. Qed.
Print Assumptions C14_hidden_needs_positive_filter.

(** The selection theorem restricted to hidden tests. *)
Theorem C14_hidden_selection :
  forall (mt mn : nat) (filters : list str) (id : test_id) (tags : list text),
  id_tags id = tag_string tags -> well_formed mt tags -> filters <> [] ->
  length (full_name_of (id_name id) (id_type id)) <= mn -> hidden tags ->
  exists b, cli_selects mt mn filters id = Ok b /\
    (b = true <-> Forall (filter_holds (full_name_of (id_name id) (id_type id)) tags) filters /\
                  Exists (filter_positively (full_name_of (id_name id) (id_type id)) tags) filters).
Proof. exact hidden_selection. Qed.
Print Assumptions C14_hidden_selection.

(** README: hidden tests can always be selected with ["[.]"] and excluded with ["~[.]"]. *)
Theorem C14_dot_filter :
  forall (name : text) (tags : list text),
  Forall no_brackets tags ->
  (filter_positively name tags (quote "[.]") <-> hidden tags) /\
  (filter_holds name tags (quote "~[.]") <-> ~ hidden tags).
Proof. exact dot_filter. Qed.
Print Assumptions C14_dot_filter.

Example C14_example :
  hidden [quote "x"; quote ".abc"] /\ ~ hidden [quote "x"; quote "a.b"] /\
  default_selects 5 (mkid (lit "t") (tag_string [quote "x"; quote ".abc"]) [] []) = Ok false /\
  default_selects 5 (mkid (lit "t") (tag_string [quote "x"; quote "a.b"]) [] []) = Ok true.
Proof.
  split; [right; now left|]. split; [intros H; vm_compute in H; intuition discriminate|].
  split; vm_compute; reflexivity.
Qed.

(** C15. *)
Theorem C15_and_algebra :
  (forall a b, included (filter_result_and a b) = included a && included b) /\
  (forall a, filter_result_and a a = a) /\
  (forall a b, filter_result_and a b = filter_result_and b a) /\
  (forall a b c, filter_result_and a (filter_result_and b c) = filter_result_and (filter_result_and a b) c).
Proof. exact filter_and_algebra. Qed.
Print Assumptions C15_and_algebra.

Theorem C15_or_algebra :
  (forall a b, included (filter_result_or a b) = included a || included b) /\
  (forall a, filter_result_or a a = a) /\
  (forall a b, filter_result_or a b = filter_result_or b a) /\
  (forall a b c, filter_result_or a (filter_result_or b c) = filter_result_or (filter_result_or a b) c).
Proof. exact filter_or_algebra. Qed.
Print Assumptions C15_or_algebra.

(** When both operands agree on inclusion, the result is explicit iff one of them is. *)
Theorem C15_explicit_wins :
  forall a b, included a = included b ->
  implicit (filter_result_and a b) = implicit a && implicit b /\
  implicit (filter_result_or a b) = implicit a && implicit b.
Proof. exact explicit_wins. Qed.
Print Assumptions C15_explicit_wins.

Theorem C15_any_order_and_bracketing :
  forall t t' : bracketing filter_result, Permutation (operands t) (operands t') ->
  value filter_result_and t = value filter_result_and t' /\ value filter_result_or t = value filter_result_or t'.
Proof. exact filter_bracketing. Qed.
Print Assumptions C15_any_order_and_bracketing.

Example C15_example :
  value filter_result_and (Both (One (mkfr true true)) (Both (One (mkfr true false)) (One (mkfr true true)))) = mkfr true false /\
  value filter_result_or (Both (Both (One (mkfr false false)) (One (mkfr true true))) (One (mkfr false true))) = mkfr true true.
Proof. split; reflexivity. Qed.

(** C16. Well-formed tag strings are read back as the tags they were written from; the special tags are
    recognised exactly. *)
Theorem C16_tags_read_back :
  forall (mt : nat) (tags : list text), well_formed mt tags ->
  exists l, for_each_tag mt (tag_string tags) = Ok l /\
    flat_map (fun t => match t with Visible s _ => [s] | _ => [] end) l = tags_of tags /\
    (existsb is_hidden l = true <-> hidden tags) /\
    (existsb is_may_fail l = true <-> In (quote "[!mayfail]") (tags_of tags)) /\
    (existsb is_should_fail l = true <-> In (quote "[!shouldfail]") (tags_of tags)).
Proof. exact for_each_tag_spec. Qed.
Print Assumptions C16_tags_read_back.

Theorem C16_unbracketed_rejected :
  forall (mt : nat) (s : str), s <> [] -> (~ In "["%char s \/ ~ In "]"%char s) -> for_each_tag mt s = Err Assert.
Proof. exact tags_rejected. Qed.
Print Assumptions C16_unbracketed_rejected.

Example C16_example :
  for_each_tag 20 (lit "[a b][.!mayfail][.]") =
    Ok [Visible (lit "[a b]") false; Hidden; Visible (lit "[.]") false; MayFail; Visible (lit "[!mayfail]") true;
        Hidden; Visible (lit "[.]") false] /\
  tags_of [quote "a b"; quote ".!mayfail"; quote "."] = map lit ["[a b]"; "[.]"; "[!mayfail]"; "[.]"]%string /\
  for_each_tag 20 (lit "tag") = Err Assert.
Proof. repeat split; vm_compute; reflexivity. Qed.

(** C36. Registration keeps order and asserts exactly when the registry is full or the full name is empty or too
    long. *)
Theorem C36_registration :
  forall (max mn : nat) (ids : list test_id),
  (length ids <= max /\
   Forall (fun id => 1 <= length (full_name_of (id_name id) (id_type id)) <= mn) ids ->
   add_tests max mn [] ids = Ok ids) /\
  (~ (length ids <= max /\
      Forall (fun id => 1 <= length (full_name_of (id_name id) (id_type id)) <= mn) ids) ->
   add_tests max mn [] ids = Err Assert).
Proof. exact registration. Qed.
Print Assumptions C36_registration.

Example C36_example :
  add_tests 2 8 [] [mkid (lit "a") [] (lit "int") []; mkid (lit "b") [] [] []]
    = Ok [mkid (lit "a") [] (lit "int") []; mkid (lit "b") [] [] []] /\
  add_tests 2 6 [] [mkid (lit "a") [] (lit "int") []] = Err Assert /\
  add_tests 1 8 [] [mkid (lit "a") [] [] []; mkid (lit "b") [] [] []] = Err Assert /\
  add_tests 1 8 [] [mkid [] [] [] []] = Err Assert.
Proof. repeat split; vm_compute; reflexivity. Qed.

(** C52 is false: with a tag like ["[.a]"] the listing reads a destroyed local buffer. *)
Theorem C52_list_tags_refuted :
  exists tests, forall mm mt max, 3 <= mt -> 2 <= max ->
  Forall2 (fun id t => id_tags id = tag_string t /\ well_formed mt t) tests [[quote ".a"]] /\
  list_all_tags mm mt max tests = Err UB.
Proof. exact list_all_tags_dangling. Qed.
Print Assumptions C52_list_tags_refuted.

(** C52, what holds: if each shortcut ["[.x]"] comes after the tag ["[x]"] (in the order of registration), each distinct tag
    is printed once, in dictionary order (inside another pair of brackets, truncated to the maximum message length [mm]), unless
    there are more than [max_unique_tags] distinct tags (assertion).
    Missing: other shortcuts (refuted above and below). *)
Theorem C52_list_tags_partial :
  forall (mm mt max : nat) (tests : list test_id) (tags : list (list text)),
  Forall2 (fun id t => id_tags id = tag_string t) tests tags ->
  Forall (well_formed mt) tags -> after_plain (List.concat tags) ->
  exists l, StronglySorted before l /\ (forall x, In x l <-> exists t, In t tags /\ In x (tags_of t)) /\
    list_all_tags mm mt max tests =
      if length l <=? max then Ok (map (fun t => fit mm (quote "[" ++ t ++ quote "]
")) l) else Err Assert.
Proof. exact list_after_plain. Qed.
Print Assumptions C52_list_tags_partial.

(** In every other case, for any tests, no list is printed: a destroyed buffer is read, or there are too many tags. *)
Theorem C52_shortcuts_refuted :
  forall (mm mt max : nat) (tests : list test_id) (tags : list (list text)),
  Forall2 (fun id t => id_tags id = tag_string t) tests tags ->
  Forall (well_formed mt) tags -> ~ after_plain (List.concat tags) ->
  list_all_tags mm mt max tests = Err UB \/ list_all_tags mm mt max tests = Err Assert.
Proof. exact list_not_after_plain. Qed.
Print Assumptions C52_shortcuts_refuted.

Example C52_shortcuts_example :
  after_plain [quote "a"; quote "b"; quote ".b"; quote "."; quote ".."] /\ ~ after_plain [quote "a"; quote ".b"; quote "b"] /\
  list_all_tags 80 9 9 [mkid (lit "t") (lit "[a][b]") [] []; mkid (lit "u") (lit "[.b]") [] []] =
  Ok (map lit ["[[.]]
"; "[[a]]
"; "[[b]]
"]%string) /\
  list_all_tags 80 9 9 [mkid (lit "t") (lit "[a][.b]") [] []; mkid (lit "u") (lit "[b]") [] []] = Err UB.
Proof.
  split; [|split; [|split; vm_compute; reflexivity]].
  - intros before t after E D N.
    do 5 (destruct before as [|? before]; [injection E as <- E; first [discriminate D | congruence | cbn; tauto]|injection E as <- E]).
    destruct before; discriminate E.
  - intros H. specialize (H [quote "a"] (quote ".b") [quote "b"] eq_refl eq_refl). cbn in H.
    destruct H as [H|[H|[]]]; [discriminate|discriminate H|discriminate H].
Qed.

Example C52_example :
  list_all_tags 80 9 9 [mkid (lit "t") (lit "[b][a]") [] []; mkid (lit "u") (lit "[.][b][aa]") [] []] =
  Ok (map lit ["[[.]]
"; "[[a]]
"; "[[aa]]
"; "[[b]]
"]%string).
Proof. vm_compute. reflexivity. Qed.
