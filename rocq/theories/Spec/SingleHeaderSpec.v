(** The library as one header (C92). No reference to the model. *)
From Coq Require Import Arith Ascii String List Relations.
From Verif.Spec Require Import TextSpec FilterSpec.
Import ListNotations.
Local Open Scope list_scope.

(** Files by their names, as lines with their ends. *)
Definition files := text -> option (list text).

Definition double_quote : ascii := ascii_of_nat 34.
(** White space of Python's regular expressions, in ASCII. *)
Definition white (c : ascii) : Prop := let n := nat_of_ascii c in 9 <= n <= 13 \/ 28 <= n <= 32.

(** [begins p q s name]: the text [s] begins with an inclusion of the file [name] in double quotes, whose name begins
    with [p] and ends with [q] (with something between them). *)
Definition begins (p q s name : text) : Prop :=
  exists blanks mid rest,
    s = quote "#" ++ blanks ++ quote "include " ++ [double_quote] ++ name ++ [double_quote] ++ rest /\
    Forall white blanks /\ name = p ++ mid ++ q /\ mid <> [] /\ ~ In double_quote name.

(** The first inclusion in a line, anywhere in it. *)
Definition includes (p q line name : text) : Prop :=
  exists before s, line = before ++ s /\ begins p q s name /\
    forall before' s' name', line = before' ++ s' -> begins p q s' name' -> List.length before <= List.length before'.

Definition header_name : text -> text -> Prop := includes (quote "snitch/snitch_") (quote "hpp").
Definition source_name : text -> text -> Prop := includes (quote "snitch_") (quote "cpp").

(** Lines that are dropped: inclusions of files of the library at the beginning of a line. *)
Definition dropped (line : text) : Prop :=
  exists blanks rest, line = quote "#" ++ blanks ++ quote "include " ++ [double_quote] ++ quote "snitch" ++ rest /\ Forall white blanks.

(** [stripped lines l]: [l] is [lines] without those. *)
Inductive stripped : list text -> list text -> Prop :=
| stripped_nil : stripped [] []
| stripped_drop x lines l : dropped x -> stripped lines l -> stripped (x :: lines) l
| stripped_keep x lines l : ~ dropped x -> stripped lines l -> stripped (x :: lines) (x :: l).

(** Names of files in directories. *)
Definition within (directory name : text) : text :=
  match rev directory with
  | [] => name
  | c :: _ => if Ascii.eqb c "/"%char then directory ++ name else directory ++ quote "/" ++ name
  end.

Definition absolute (path : text) : Prop := exists r, path = quote "/" ++ r.
Definition present (fs : files) (f : text) : Prop := exists lines, fs f = Some lines.

Section Library.
Variables root build : text.
Variable fs : files.

Definition main_header : text := within (within (within root (quote "include")) (quote "snitch")) (quote "snitch.hpp").
Definition main_source : text := within (within root (quote "src")) (quote "snitch.cpp").

(** Where a header is: the configuration is generated in the directory of the build. *)
Definition located (name file : text) : Prop :=
  occurs (quote "snitch_config.hpp") name /\ file = within build name \/
  ~ occurs (quote "snitch_config.hpp") name /\ file = within (within root (quote "include")) name.

(** The file [f] includes the header [g], directly. *)
Definition needs (f g : text) : Prop :=
  exists lines line name, fs f = Some lines /\ In line lines /\ header_name line name /\ located name g.

(** The headers of the library: those included by the main header, directly or not. *)
Definition of_library (g : text) : Prop := clos_trans _ needs main_header g.

(** Each header is after all those it includes. *)
Definition arranged (l : list text) : Prop := forall l1 f l2, l = l1 ++ f :: l2 -> forall g, needs f g -> In g l1.

(** The sources of the library, in the order of the main source. *)
Inductive sources : list text -> list text -> Prop :=
| no_sources : sources [] []
| other_line x lines l : (forall name, ~ source_name x name) -> sources lines l -> sources (x :: lines) l
| source_line x lines l name : source_name x name -> sources lines l -> sources (x :: lines) (within (within root (quote "src")) name :: l).

(** A chain of inclusions that begins at a file. *)
Inductive chain : text -> list text -> Prop :=
| chain_one f : chain f [f]
| chain_more f g l : needs f g -> chain g l -> chain f (f :: l).
End Library.

Definition line_end : text := [ascii_of_nat 10].

(** How a file appears: its lines but the dropped ones; guarded if it is a source (if its name contains ".cpp"). *)
Definition appearance (guarded : bool) (lines : list text) : text :=
  (if guarded then quote "#if defined(SNITCH_IMPLEMENTATION)" ++ line_end else []) ++ List.concat lines ++
  (if guarded then line_end ++ quote "#endif" ++ line_end else []).

Definition appears (fs : files) (f t : text) : Prop :=
  exists lines l guarded, fs f = Some lines /\ stripped lines l /\ (guarded = true <-> occurs (quote ".cpp") f) /\ t = appearance guarded l.

(** Texts one after the other, with a line end between them. *)
Fixpoint separated (l : list text) : text :=
  match l with
  | [] => []
  | [t] => t
  | t :: l' => t ++ line_end ++ separated l'
  end.

Definition whole (l : list text) : text :=
  quote "#ifndef SNITCH_ALL_HPP" ++ line_end ++ quote "#define SNITCH_ALL_HPP" ++ line_end ++
  separated l ++ line_end ++ quote "#endif" ++ line_end.
