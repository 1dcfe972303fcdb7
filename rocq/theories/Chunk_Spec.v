(** What rule sets should do, on the plain list of rules in the order in which they were added. *)
From Verif Require Import Base Hash_Model Sht_Model Chunk_Model.

(** A hash table after a list of additions (hash, element). *)
Definition sht_of {D} (max : Z) (adds : list (Z * D)) : sht D := fold_left (fun t a => sht_add t (fst a) (snd a)) adds (sht_init max).

(** All elements that a caller sees who repeats Find from NULL until NULL. *)
Fixpoint sht_all {D} (fuel : nat) (t : sht D) (hash : Z) (start : option nat) : outcome (list D) :=
  match fuel with
  | O => Fuel
  | S fuel' =>
    let! r := sht_find t hash start in
    match r with
    | None => Ret []
    | Some i => match nth_error (t_nodes t) i with
                | None => UBR
                | Some n => let! l := sht_all fuel' t hash (Some i) in Ret (sh_data n :: l)
                end
    end
  end.

Section Rules.
Context {V : Type} (fn : list Z -> list Z -> bool).
(** A rule: its text and its data. *)
Notation rule := (list Z * option V)%type.

Definition chunk_of (rs : list rule) : chunk V := fold_left (fun k r => chunk_add k (fst r) (snd r)) rs chunk_init.
Definition chunk_of_domains (rs : list rule) : chunk V := fold_left (fun k r => chunk_add_domain k (fst r) (snd r)) rs chunk_init.
(** A leading dot of a domain rule does not count. *)
Definition undotted (r : rule) : rule := (match fst r with 46 :: s => s | _ => fst r end, snd r).

(** No '*', '?', '['. *)
Definition plain (s : list Z) : Prop := ~ In 42 s /\ ~ In 63 s /\ ~ In 91 s.

(** [d] is the name [s] or one of its parent domains. *)
Definition encloses (d s : list Z) : Prop := d = s \/ exists p, p <> [] /\ s = p ++ 46 :: d.

(** [o] is the data of the most recent plain rule for exactly [s] that [acc] accepts. *)
Definition newest_exact (rs : list rule) (acc : option V -> bool) (s : list Z) (o : option (option V)) : Prop :=
  match o with
  | None => forall r, In r rs -> fst r = s -> plain s -> acc (snd r) = false
  | Some d => plain s /\ exists rs1 rs2, rs = rs1 ++ (s, d) :: rs2 /\ acc d = true /\ forall r, In r rs2 -> fst r = s -> acc (snd r) = false
  end.

(** [o] is the data of the newest acceptable plain rule for the longest enclosing domain that has one. *)
Definition closest (rs : list rule) (acc : option V -> bool) (s : list Z) (o : option (option V)) : Prop :=
  match o with
  | None => forall r, In r rs -> plain (fst r) -> encloses (fst r) s -> acc (snd r) = false
  | Some d => exists n, encloses n s /\ newest_exact rs acc n (Some d) /\
      forall r, In r rs -> plain (fst r) -> encloses (fst r) s -> acc (snd r) = true -> (length (fst r) <= length n)%nat
  end.

(** [o] is the data of the first acceptable pattern that matches. *)
Definition first_wild (rs : list rule) (acc : option V -> bool) (s : list Z) (o : option (option V)) : Prop :=
  match o with
  | None => forall r, In r rs -> ~ plain (fst r) -> fn (fst r) s = true -> acc (snd r) = false
  | Some d => exists rs1 p rs2, rs = rs1 ++ (p, d) :: rs2 /\ ~ plain p /\ fn p s = true /\ acc d = true /\
      forall r, In r rs1 -> ~ plain (fst r) -> fn (fst r) s = true -> acc (snd r) = false
  end.
(** ... of the first pattern spelled exactly like [s]. *)
Definition first_same (rs : list rule) (acc : option V -> bool) (s : list Z) (o : option (option V)) : Prop :=
  match o with
  | None => forall r, In r rs -> ~ plain s -> fst r = s -> acc (snd r) = false
  | Some d => ~ plain s /\ exists rs1 rs2, rs = rs1 ++ (s, d) :: rs2 /\ acc d = true /\ forall r, In r rs1 -> fst r = s -> acc (snd r) = false
  end.

(** [d] is the data of some acceptable matching pattern; of "*" only if no other pattern matches. *)
Definition some_wild (rs : list rule) (acc : option V -> bool) (s : list Z) (d : option V) : Prop :=
  exists p, In (p, d) rs /\ ~ plain p /\ fn p s = true /\ acc d = true /\
    (p = [42] -> forall r, In r rs -> ~ plain (fst r) -> fn (fst r) s = true -> acc (snd r) = true -> fst r = [42]).
End Rules.
