(** Escaped texts, as documented for XML and for TeamCity service messages (C39-C41). No reference to the model. *)
From Coq Require Import Arith Ascii String Bool List.
From Verif.Spec Require Import TextSpec.
Import ListNotations.
Local Open Scope list_scope.

(** The characters that must not appear as such, and how they are written. *)
Definition code := list (ascii * text).

Definition special (l : code) (c : ascii) : Prop := In c (map fst l).

(** [t] is the text [s] written with the code: special characters are replaced by what stands for them, all others are
    kept. Read from right to left, this is the decoding of [t]. *)
Inductive encoded (l : code) : text -> text -> Prop :=
| enc_nil : encoded l [] []
| enc_plain c s t : ~ special l c -> encoded l s t -> encoded l (c :: s) (c :: t)
| enc_special c e s t : In (c, e) l -> encoded l s t -> encoded l (c :: s) (e ++ t).

Local Definition quoted (s : string) : text := list_ascii_of_string s.

(** XML: ampersand, double quote (34), apostrophe (39), less than, greater than (www.w3.org/TR/xml, 4.6). *)
Definition xml_entities : code :=
  [("&"%char, quoted "&amp;"); (ascii_of_nat 34, quoted "&quot;"); (ascii_of_nat 39, quoted "&apos;");
   ("<"%char, quoted "&lt;"); (">"%char, quoted "&gt;")].

(** TeamCity: apostrophe (39), line feed (10), carriage return (13), vertical bar and square brackets, each written
    with a vertical bar in front. *)
Definition teamcity_code : code :=
  [("|"%char, quoted "||"); (ascii_of_nat 39, ["|"%char; ascii_of_nat 39]); (ascii_of_nat 10, quoted "|n");
   (ascii_of_nat 13, quoted "|r"); ("["%char, quoted "|["); ("]"%char, quoted "|]")].

(** The text [w] does not fit in [n] characters once encoded with [l], and [out] is what is left of it: the characters
    [l1] that come first in the code have been replaced (and fit); the replacement of the next one, [c], does not fit,
    so that the text is cut, [c] is replaced in what remains, and dots are added; the characters that come later in the
    code are not replaced at all, and the cut may fall inside of what stands for one of the first. *)
Definition overflowed (l : code) (n : nat) (w out : text) : Prop :=
  exists l1 c e l2 full next pre suf u, l = l1 ++ (c, e) :: l2 /\ encoded l1 w full /\ encoded [(c, e)] full next /\
    length full <= n < length next /\ full = pre ++ suf /\ suf <> [] /\ encoded [(c, e)] pre u /\ out = u ++ repeat "."%char (Nat.min 3 n).
