(** What is observed of the server groups of one load. *)
From Verif Require Import Base Retire_Model.

(** The groups that were started: whether it is UDP, whether it comes from a group file. *)
Definition groups (tr : list label) : list (bool * bool) := flat_map (fun l => match fst l with Start u f => [(u, f)] | _ => [] end) tr.
(** No load fails after a group has been started, and no UDP group gives up by itself before it is replaced. *)
Definition calm (tr : list label) : Prop :=
  (forall pre b post, tr = pre ++ (Fail, b) :: post -> groups pre = []) /\
  (forall pre i b post, tr = pre ++ (GiveUp true i, b) :: post -> In Replace (map fst pre)).
(** How often the i-th group freed something of its own; how many turns its worker made. *)
Definition releases (i : nat) (tr : list label) : nat := length (filter (fun l => match fst l with Release j => (j =? i)%nat | _ => false end) tr).
Definition turns (i : nat) (tr : list label) : nat := length (filter (fun l => match fst l with Turn j | Reports j | GiveUp _ j => (j =? i)%nat | _ => false end) tr).
