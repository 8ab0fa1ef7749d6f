(** Durations (C75, C76): what can be observed of a test, and when. No reference to the model. *)
From Coq Require Import Arith ZArith QArith Qabs Bool List Sorted.
From Verif.Spec Require Import Events.
Import ListNotations.
Local Open Scope Z_scope.

(** Times and durations are in nanoseconds. *)
Inductive seen {ID : Type} :=
| Entered (s : section_id)  (** the block of a section is entered. *)
| Left (s : section_id)     (** it is left, in whatever way. *)
| Reported (e : event ID) (duration : option Z). (** an event, or an effect of the user's code. *)
Arguments seen : clear implicits.

(** A history: observations with their times, oldest first. *)
Definition history (ID : Type) : Type := list (Z * seen ID).

Definition reports {ID} (h : history ID) : list (event ID) :=
  flat_map (fun x => match snd x with Reported e _ => [e] | _ => [] end) h.

(** The blocks entered and not left yet, with the times at which they were entered; outermost first. *)
Definition open_blocks {ID} (h : history ID) : list (section_id * Z) :=
  fold_left (fun l x => match snd x with
                        | Entered s => l ++ [(s, fst x)]
                        | Left _ => removelast l
                        | Reported _ _ => l
                        end) h [].

(** The block of [s] entered at the time [t0] has been left, as have all blocks in it, and the block around it has not been
    left for longer: it is one of those that were open at some earlier time, inside the ones that still are. *)
Definition left_before {ID} (h : history ID) (s : section_id) (t0 : Z) : Prop :=
  exists earlier later inside further, h = earlier ++ later /\ open_blocks earlier = open_blocks h ++ inside ++ (s, t0) :: further.

(** Times do not go back. *)
Definition ordered {ID} (h : history ID) : Prop := StronglySorted Z.le (map fst h).

(** All of it happened between the times [from] and [to]. *)
Definition during {ID} (from to : Z) (h : history ID) : Prop := Forall (fun x => from <= fst x <= to) h.

(** The durations given at the end of test cases. *)
Definition case_durations {ID} (h : history ID) : list Z :=
  flat_map (fun x => match snd x with Reported (TestCaseEnded _ _ _ _) (Some d) => [d] | _ => [] end) h.

(** Time spent inside the blocks of section [s], from entry to exit. *)
Definition time_inside {ID} (same : section_id -> bool) (h : history ID) : Z :=
  fold_right Z.add 0 (map (fun x => match snd x with
                                    | Entered s => if same s then - fst x else 0
                                    | Left s => if same s then fst x else 0
                                    | Reported _ _ => 0
                                    end) h).

(** Which events carry a duration. *)
Definition timed_event {ID} (e : event ID) : bool :=
  match e with TestCaseEnded _ _ _ _ | SectionEnded _ _ _ | TestRunEnded _ _ _ _ _ _ _ _ => true | _ => false end.

(** Rounding with 24 significant binary digits ([float]); the range of exponents does not matter here. *)
Definition rounding (fl : Q -> Q) : Prop := forall x, (Qabs (fl x - x) <= Qabs x * (1 # 16777216))%Q.
