(** Model of the hash table with chains of subscripts (simpleht.c). *)
From Verif Require Import Base Hash_Model.

Section Sht.
Context {D : Type}.

(** Sht_NodeHead and the element, simpleht.h 6-9.  Subscript -1 is [None]; an out of range subscript yields NULL
    (Array_GetBySubscript). *)
Record shnode := mk_sh { sh_next : option nat; sh_hash : Z; sh_data : D }.

(** struct _SimpleHT, simpleht.h 11-20: the two arrays (array.c is modelled in Arr_Model; here they are lists),
    the load factor and the space left before the table grows.  Allocation succeeds. *)
Record sht := mk_sht { t_slots : list (option nat); t_nodes : list shnode; t_max : Z; t_left : Z }.

(** SimpleHT_Init, 10-35. *)
Definition sht_init (max : Z) : sht := mk_sht (repeat None 7) [] max (7 * max).

(** Assignment to an element of an array, simpleht.c 37-78. *)
Fixpoint lset {A} (l : list A) (i : nat) (x : A) : list A :=
  match l, i with
  | [], _ => []
  | _ :: l', O => x :: l'
  | y :: l', S i' => y :: lset l' i' x
  end.

(** SimpleHT_AddToSlot, 37-52, for the node at subscript [i]. *)
Definition add_to_slot (t : sht) (i : nat) : sht :=
  match nth_error (t_nodes t) i with
  | None => t
  | Some n =>
    let s := Z.to_nat (sh_hash n mod Z.of_nat (length (t_slots t))) in
    match nth_error (t_slots t) s with
    | None => t
    | Some head =>
      mk_sht (lset (t_slots t) s (Some i)) (lset (t_nodes t) i (mk_sh head (sh_hash n) (sh_data n))) (t_max t) (t_left t)
    end
  end.

(** SimpleHT_Expand, 54-78: twice as many empty slots, all nodes are linked again. *)
Definition sht_expand (t : sht) : sht :=
  let n := length (t_slots t) in
  fold_left add_to_slot (seq 0 (length (t_nodes t)))
            (mk_sht (repeat None (n + n)) (t_nodes t) (t_max t) (t_left t)).

(** SimpleHT_Add, 80-119, with the hash value of the key ([HashValue] if given, else HashFunction(Key)). *)
Definition sht_add (t : sht) (hash : Z) (d : D) : sht :=
  let t1 := if t_left t =? 0
            then let n := length (t_slots t) in
                 let e := sht_expand t in mk_sht (t_slots e) (t_nodes e) (t_max e) (Z.of_nat n * t_max e)
            else t in
  let i := length (t_nodes t1) in
  let t2 := add_to_slot (mk_sht (t_slots t1) (t_nodes t1 ++ [mk_sh None hash d]) (t_max t1) (t_left t1)) i in
  mk_sht (t_slots t2) (t_nodes t2) (t_max t2) (t_left t2 - 1).

(** SimpleHT_Find, 121-161: subscript of the node ([None] is NULL); [start] is the subscript of Start. *)
Definition sht_get (t : sht) (o : option nat) : option nat :=
  match o with None => None | Some i => if Nat.ltb i (length (t_nodes t)) then Some i else None end.
(** SimpleHT_Find, simpleht.c 121-161. *)
Definition sht_find (t : sht) (hash : Z) (start : option nat) : outcome (option nat) :=
  match start with
  | Some i => match nth_error (t_nodes t) i with None => UBR | Some n => Ret (sht_get t (sh_next n)) end
  | None =>
    match t_slots t with
    | [] => Ret None
    | _ => match nth_error (t_slots t) (Z.to_nat (hash mod Z.of_nat (length (t_slots t)))) with
           | None => Ret None
           | Some head => Ret (sht_get t head)
           end
    end
  end.

(** SimpleHT_Enum, 163-177, called until it returns NULL. *)
Fixpoint sht_enum (fuel : nat) (t : sht) (start : nat) : list D :=
  match fuel with
  | O => []
  | S fuel' => match nth_error (t_nodes t) start with
               | None => []
               | Some n => sh_data n :: sht_enum fuel' t (S start)
               end
  end.
End Sht.
Arguments shnode : clear implicits.
Arguments sht : clear implicits.
