(** Output files (C50): what is done with each file. No reference to the model. *)
From Coq Require Import Arith Bool List.
From Verif.Spec Require Import TextSpec.
Import ListNotations.

(** Opening, writing to and closing a file. Files are numbered in the order in which they are opened. *)
Inductive file_action := FOpen (f : nat) | FWrite (f : nat) (s : text) | FClose (f : nat).

Definition about (a : file_action) : nat := match a with FOpen f => f | FWrite f _ => f | FClose f => f end.
(** What is done with file [f]. *)
Definition history (f : nat) (log : list file_action) : list file_action := filter (fun a => about a =? f) log.

(** Never opened; opened, then written to; or opened, written to and closed. *)
Inductive use := Unopened | Open (texts : list text) | Closed (texts : list text).
Definition actions_of (f : nat) (u : use) : list file_action :=
  match u with
  | Unopened => []
  | Open texts => FOpen f :: map (FWrite f) texts
  | Closed texts => FOpen f :: map (FWrite f) texts ++ [FClose f]
  end.
