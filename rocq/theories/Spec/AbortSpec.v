(** Where test bodies are aborted, and which sections are open after some section events (C24). No reference to the
    model. *)
From Coq Require Import Bool List.
From Verif.Spec Require Import TextSpec Events RunSpec TreeSpec.
Import ListNotations.
Local Open Scope list_scope.

(** Code that can end a test at its place in pass number [pass]: it throws, or is a REQUIRE or SKIP (of whatever
    kind). *)
Definition can_abort (pass : nat) (p : prog) : Prop :=
  match p with
  | Throw when _ _ => when pass = true
  | Check _ _ abort _ _ | Skip _ _ abort _ => abort = true
  | _ => False
  end.

(** The sections started and not ended by these events, outermost first, if all of them are properly nested. *)
Fixpoint open_after (around : list section_id) (l : list bracket) : list section_id :=
  match l with
  | [] => around
  | Start s :: l' => open_after (around ++ [s]) l'
  | End _ :: l' => open_after (removelast around) l'
  end.
