(** C46: type-erased storages. [history ops c l] says that the operations [ops] are possible one after the other, leave
    the storages with the contents [c], and construct and destroy the objects listed in [l]. *)
From Verif.Spec Require Import AnySpec.
From Verif.Model Require Import Base Any.
From Verif.Proofs Require Import AnyProofs.

(** For every sequence of operations on storages that exist, the program is defined (no object is destroyed through the
    wrong type, twice, or before its construction), constructs and destroys what the specification says, and every
    object constructed has either been destroyed once and is held by no storage, or has not been destroyed and is held
    by exactly one storage. *)
Theorem C46_once : forall ops c l, history ops c l ->
  exists w, any_run no_world ops = Ok w /\ log w = l /\
  forall o, In (Constructed o) l ->
    occurrences (Constructed o) l = 1 /\
    (occurrences (Destroyed o) l = 1 /\ (forall i, held c i <> Some o) \/
     occurrences (Destroyed o) l = 0 /\ exists i, held c i = Some o /\ forall j, held c j = Some o -> j = i).
Proof. exact once. Qed.
Print Assumptions C46_once.

(** Objects are destroyed only after their construction. *)
Theorem C46_order : forall ops c l, history ops c l -> forall before o after, l = before ++ Destroyed o :: after -> In (Constructed o) before.
Proof. exact history_order. Qed.
Print Assumptions C46_order.

(** When no storage exists any more, every object constructed has been destroyed, once. *)
Theorem C46_all_destroyed : forall ops c l, history ops c l -> Forall (fun x => x = None) c ->
  forall o, In (Constructed o) l -> occurrences (Constructed o) l = 1 /\ occurrences (Destroyed o) l = 1.
Proof. exact all_destroyed. Qed.
Print Assumptions C46_all_destroyed.

(** [get<t>()] gives the object held if its type is [t] and otherwise fails an assertion; [has_value()] and [type()]
    tell whether there is one, and its type. *)
Theorem C46_get : forall ops c l w i, history ops c l -> any_run no_world ops = Ok w -> exists_in c i ->
  (forall t, any_get w i t = match held c i with Some o => if o_type o =? t then Ok o else Err Assert | None => Err Assert end) /\
  exists a, get_any w i = Ok a /\ any_has_value a = (match held c i with Some _ => true | None => false end) /\ tid a = option_map o_type (held c i).
Proof. exact get_spec. Qed.
Print Assumptions C46_get.

(** Two storages: one constructed with an object of type 7, moved into the other over an object of type 8, replaced
    there by an object of type 9, and everything destroyed. *)
Example C46_case : exists c, history ([] ++ [CreateWith 7 true] ++ [CreateWith 8 true] ++ [Assign 1 0] ++ [Emplace 1 9 true] ++ [Delete 0] ++ [Delete 1]) c
    [Constructed (mkobject 7 0); Constructed (mkobject 8 1); Destroyed (mkobject 8 1); Destroyed (mkobject 7 0); Constructed (mkobject 9 3); Destroyed (mkobject 9 3)] /\
  c = [None; None].
Proof.
  eexists. split; [|reflexivity]. rewrite !app_assoc.
  apply (one_more _ [None; Some (Some (mkobject 9 3))] [_; _; _; _; _] (Delete 1)); [|now exists (Some (mkobject 9 3))].
  apply (one_more _ [Some None; Some (Some (mkobject 9 3))] [_; _; _; _; _] (Delete 0)); [|now exists None].
  apply (one_more _ [Some None; Some (Some (mkobject 7 0))] [_; _; _] (Emplace 1 9 true)); [|now exists (Some (mkobject 7 0))].
  apply (one_more _ [Some (Some (mkobject 7 0)); Some (Some (mkobject 8 1))] [_; _] (Assign 1 0)); [|split; eexists; reflexivity].
  apply (one_more _ [Some (Some (mkobject 7 0))] [_] (CreateWith 8 true)); [|exact I].
  apply (one_more _ [] [] (CreateWith 7 true)); [|exact I]. constructor.
Qed.

(** A storage moved onto itself loses its object (which is destroyed, once): [get] then fails an assertion. *)
Theorem C46_self_assignment : forall ops c l i o, history ops c l -> held c i = Some o ->
  exists w, any_run no_world (ops ++ [Assign i i]) = Ok w /\ log w = l ++ [Destroyed o] /\ forall t, any_get w i t = Err Assert.
Proof. exact self_assignment. Qed.
Print Assumptions C46_self_assignment.
