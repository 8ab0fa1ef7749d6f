(** Model of what src/snitch_string_utility.cpp:179-241 [is_match] costs: as [is_match] of Model/StringUtil.v, with the
    number of iterations of its loops (each of which reads one character of the pattern or makes one recursive call), and
    the depth of recursive calls. *)
From Verif.Model Require Import Base StringUtil.

Record counted := mkcounted { outcome : bool; iterations : nat; nesting : nat }.

(** One more iteration. *)
Definition once (c : counted) : counted := mkcounted (outcome c) (S (iterations c)) (nesting c).

(** 224-230: one iteration and one call for each remaining character of the string, until a match is found. *)
Fixpoint counted_suffixes (call : str -> counted) (s : str) : counted :=
  match s with
  | [] => mkcounted false 0 0
  | _ :: s' =>
    let c := call s in
    if outcome c then mkcounted true (S (iterations c)) (S (nesting c))
    else
      let c' := counted_suffixes call s' in
      mkcounted (outcome c') (S (iterations c) + iterations c') (Nat.max (S (nesting c)) (nesting c'))
  end.

(** 219: [regex.find_first_not_of('*')] reads wildcards up to the first other character. *)
Fixpoint read_stars (re : str) : nat :=
  match re with
  | [] => 0
  | c :: re' => if aeqb c star then S (read_stars re') else 1
  end.

(** 190-240. *)
Fixpoint counted_loop (re s : str) {struct re} : counted :=
  match re with
  | [] => mkcounted (match s with [] => true | _ => false end) 0 0
  | x :: re' =>
    if aeqb x backslash then
      match re' with
      | [] => mkcounted false 1 0
      | y :: re'' =>
        match s with
        | c :: s' => if aeqb y c then once (counted_loop re'' s') else mkcounted false 1 0
        | [] => mkcounted false 1 0
        end
      end
    else if aeqb x star then
      match re' with
      | [] => mkcounted true 1 0
      | _ =>
        match s with
        | [] => mkcounted (only_stars re') (S (read_stars re')) 0
        | _ => once (counted_suffixes (counted_loop re') s)
        end
      end
    else
      match s with
      | c :: s' => if aeqb x c then once (counted_loop re' s') else mkcounted false 1 0
      | [] => mkcounted false 1 0
      end
  end.

(** 179-241. *)
Definition counted_match (s re : str) : counted :=
  match re with [] => mkcounted true 0 0 | _ => counted_loop re s end.
