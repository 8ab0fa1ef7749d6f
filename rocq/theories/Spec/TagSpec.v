(** Specification of what a tag string of any form means (C82), with no reference to the model. FilterSpec starts from
    a list of tags and gives its tag string; here the string is given, and it may be mistyped. *)
From Coq Require Import Arith Ascii String Bool List.
From Verif.Spec Require Import TextSpec FilterSpec.
Import ListNotations.
Local Open Scope list_scope.

(** The string is cut between a closing bracket and an opening bracket that directly follows it, and nowhere else. *)
Inductive cut : text -> list text -> Prop :=
| cut_last s : ~ occurs (quote "][") s -> cut s [s]
| cut_more a s l : ~ occurs (quote "][") (a ++ quote "]") -> cut (quote "[" ++ s) l ->
    cut (a ++ quote "][" ++ s) ((a ++ quote "]") :: l).

(** The tags a piece stands for: the piece itself, whatever it contains, except that ["[.x"] means ["[.]"] and
    ["[x"]. *)
Definition tags_in (p : text) : list text :=
  match p with
  | "["%char :: "."%char :: r =>
    match r with
    | ["]"%char] => [quote "[.]"]
    | _ => [quote "[.]"; quote "[" ++ r]
    end
  | _ => [p]
  end.

(** A piece ["[.x"] whose ["[x"] is too long. *)
Definition too_long (max_tag_length : nat) (p : text) : Prop :=
  exists r, p = quote "[." ++ r /\ r <> quote "]" /\ max_tag_length < S (length r).

(** A closing bracket alone, at the start of the string, is not a tag. *)
Definition stray (p : text) : bool := match p with ["]"%char] => true | _ => false end.

(** The string is taken to mean that the test has these tags. *)
Definition read_as (max_tag_length : nat) (s : text) (has : list text) : Prop :=
  (s = [] /\ has = []) \/
  (In "["%char s /\ In "]"%char s /\
   exists pieces, cut s pieces /\ Forall (fun p => ~ too_long max_tag_length p) pieces /\
                  has = flat_map tags_in (filter (fun p => negb (stray p)) pieces)).

(** The string is refused. *)
Definition unreadable (max_tag_length : nat) (s : text) : Prop :=
  s <> [] /\
  (~ In "["%char s \/ ~ In "]"%char s \/ exists pieces, cut s pieces /\ Exists (too_long max_tag_length) pieces).

(** ** Filters, for a test that has these tags: as in FilterSpec, where the tags are those of a list without brackets. *)
Definition tag_holds_in (has : list text) (f : text) : Prop := holds f (fun p => Exists (matches p) has).
Definition tags_hold_in (has : list text) (f : text) : Prop := forall l, split_tags f l -> Forall (tag_holds_in has) l.
Definition tags_positively_in (has : list text) (f : text) : Prop :=
  tags_hold_in has f /\ forall l, split_tags f l -> Exists (fun p => negated p = false) l.
Definition single_holds_in (name : text) (has : list text) (f : text) : Prop :=
  if about_tags f then tags_hold_in has f else name_holds name f.
Definition single_positively_in (name : text) (has : list text) (f : text) : Prop :=
  if about_tags f then tags_positively_in has f else name_holds name f /\ negated f = false.
Definition filter_holds_in (name : text) (has : list text) (f : text) : Prop :=
  forall l, split_commas f l -> Exists (single_holds_in name has) l.
Definition filter_positively_in (name : text) (has : list text) (f : text) : Prop :=
  forall l, split_commas f l -> Exists (single_positively_in name has) l.
Definition selected_in (name : text) (has : list text) (filters : list text) : Prop :=
  Forall (filter_holds_in name has) filters /\
  (In (quote "[.]") has -> Exists (filter_positively_in name has) filters).
