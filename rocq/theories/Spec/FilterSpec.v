(** Specification of tag strings and of the documented meaning of filters (README.md:493-507, 908-953),
    with no reference to the model (C12-C17, C52). *)
From Coq Require Import Arith Ascii String Bool List.
From Verif.Spec Require Import TextSpec.
Import ListNotations.
Local Open Scope list_scope.

Definition quote (x : string) : text := list_ascii_of_string x.

(** ** Tags. The tags of a test as a list of texts without brackets, e.g. [tag1], [.integration], [!mayfail];
    the tag string is ["[tag1][.integration][!mayfail]"]. *)
Definition bracketed (t : text) : text := quote "[" ++ t ++ quote "]".
Definition tag_string (tags : list text) : text := List.concat (map bracketed tags).

Definition no_brackets (t : text) : Prop := ~ In "["%char t /\ ~ In "]"%char t.

(** ["[.x]"] is a shortcut for ["[.][x]"]. *)
Definition dotted (t : text) : bool := match t with c :: _ => Ascii.eqb c "."%char | [] => false end.
Definition names (t : text) : list text :=
  if dotted t then match t with [_] => [quote "."] | _ => [quote "."; tl t] end else [t].

(** The tags a test has, after expansion of the shortcut, with their brackets. *)
Definition tags_of (tags : list text) : list text := map bracketed (flat_map names tags).

(** A test is hidden if it has the tag ["[.]"]. *)
Definition hidden (tags : list text) : Prop := In (quote "[.]") (tags_of tags).

(** Tag lists that can be registered: no brackets inside, and what remains of a hidden tag [".x"] fits, with its
    brackets, in the maximum tag length. *)
Definition well_formed (max_tag_length : nat) (tags : list text) : Prop :=
  Forall (fun t => no_brackets t /\
                   (dotted t = true -> t <> quote "." -> length (bracketed (tl t)) <= max_tag_length)) tags.

(** Each shortcut ["[.x]"] comes after the tag ["[x]"] itself. *)
Definition after_plain (tags : list text) : Prop :=
  forall before t after, tags = before ++ t :: after -> dotted t = true -> t <> quote "." ->
  In (tl t) (quote "." :: flat_map names before).

(** A test may fail, or should fail, if it has the tag ["[!mayfail]"], ["[!shouldfail]"]. *)
Definition tagged (tags : list text) (may should : bool) : Prop :=
  (may = true <-> In (quote "[!mayfail]") (tags_of tags)) /\
  (should = true <-> In (quote "[!shouldfail]") (tags_of tags)).

(** The full name of a test: [name], or [name <type>] for an instance of a templated test. *)
Definition full_name_of (name type : text) : text :=
  match type with [] => name | _ => name ++ quote " <" ++ type ++ quote ">" end.

(** ** Filters *)

(** A pattern matches a text (an empty pattern matches everything; see C11). *)
Definition matches (pattern x : text) : Prop :=
  pattern = [] \/ exists ts, tokens pattern = Some ts /\ glob ts x.

(** [~f] negates [f]. *)
Definition negated (f : text) : bool := match f with c :: _ => Ascii.eqb c "~"%char | [] => false end.
Definition holds (f : text) (some_match : text -> Prop) : Prop :=
  if negated f then ~ some_match (tl f) else some_match f.

(** A filter on the name, and a filter on the tags. *)
Definition name_holds (name f : text) : Prop := holds f (fun p => matches p name).
Definition tag_holds (tags : list text) (f : text) : Prop :=
  holds f (fun p => Exists (matches p) (tags_of tags)).

(** Cutting a filter at its unescaped commas, and after its unescaped closing brackets. *)
Inductive split_commas : text -> list text -> Prop :=
| sc_last s : (forall i, ~ unescaped_at s ","%char i) -> split_commas s [s]
| sc_more s i l : unescaped_at s ","%char i -> (forall j, j < i -> ~ unescaped_at s ","%char j) ->
    split_commas (skipn (S i) s) l -> split_commas s (firstn i s :: l).

Inductive split_tags : text -> list text -> Prop :=
| st_last s : (forall i, ~ unescaped_at s "]"%char i) -> split_tags s [s]
| st_end s i : unescaped_at s "]"%char i -> (forall j, j < i -> ~ unescaped_at s "]"%char j) ->
    skipn (S i) s = [] -> split_tags s [s]
| st_more s i l : unescaped_at s "]"%char i -> (forall j, j < i -> ~ unescaped_at s "]"%char j) ->
    skipn (S i) s <> [] -> split_tags (skipn (S i) s) l -> split_tags s (firstn (S i) s :: l).

(** A filter starting with ["["] or ["~["] is about tags. *)
Definition about_tags (f : text) : bool :=
  match f with
  | c :: f' => Ascii.eqb c "["%char ||
               (Ascii.eqb c "~"%char && match f' with d :: _ => Ascii.eqb d "["%char | [] => false end)
  | [] => false
  end.

(** Tag filters: all must hold. It is a match (as opposed to the mere absence of an excluded tag) if one of the
    filters is not negated. *)
Definition tags_hold (tags : list text) (f : text) : Prop :=
  forall l, split_tags f l -> Forall (tag_holds tags) l.
Definition tags_positively (tags : list text) (f : text) : Prop :=
  tags_hold tags f /\ forall l, split_tags f l -> Exists (fun p => negated p = false) l.

Definition single_holds (name : text) (tags : list text) (f : text) : Prop :=
  if about_tags f then tags_hold tags f else name_holds name f.
Definition single_positively (name : text) (tags : list text) (f : text) : Prop :=
  if about_tags f then tags_positively tags f else name_holds name f /\ negated f = false.

(** A command-line argument: one of the comma-separated filters must hold. *)
Definition filter_holds (name : text) (tags : list text) (f : text) : Prop :=
  forall l, split_commas f l -> Exists (single_holds name tags) l.
Definition filter_positively (name : text) (tags : list text) (f : text) : Prop :=
  forall l, split_commas f l -> Exists (single_positively name tags) l.

(** Several arguments: all must hold; a hidden test must moreover match one of them positively. *)
Definition selected (name : text) (tags : list text) (filters : list text) : Prop :=
  Forall (filter_holds name tags) filters /\
  (hidden tags -> Exists (filter_positively name tags) filters).

(** ** Combining many results in any order with any bracketing (C15). *)
Inductive bracketing (A : Type) := One (a : A) | Both (l r : bracketing A).
Arguments One {A} a.
Arguments Both {A} l r.
Fixpoint operands {A} (t : bracketing A) : list A :=
  match t with One a => [a] | Both l r => operands l ++ operands r end.
Fixpoint value {A} (op : A -> A -> A) (t : bracketing A) : A :=
  match t with One a => a | Both l r => op (value op l) (value op r) end.

(** ** Dictionary order on texts (C52). *)
Inductive before : text -> text -> Prop :=
| before_nil c t : before [] (c :: t)
| before_lt c d s t : nat_of_ascii c < nat_of_ascii d -> before (c :: s) (d :: t)
| before_eq c s t : before s t -> before (c :: s) (c :: t).
