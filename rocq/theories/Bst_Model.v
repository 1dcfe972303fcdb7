(** Model of the ordered set (bst.c): a heap of nodes with parent, left and right pointers. *)
From Verif Require Import Base.

(** struct _Bst_NodeHead followed by the element, bst.h 10-14.  Addresses of nodes are natural numbers in
    order of their allocation; [None] is NULL.  The element type is a parameter. *)
Record node (D : Type) := mk_node { n_par : option nat; n_left : option nat; n_right : option nat; n_data : D }.
Arguments mk_node {D}. Arguments n_par {D}. Arguments n_left {D}. Arguments n_right {D}. Arguments n_data {D}.

(** struct _Bst, bst.h 21-36: the nodes handed out so far by the StableBuffer are 0 .. [b_next]-1. *)
Record bst (D : Type) := mk_bst {
  b_heap : nat -> option (node D); b_next : nat; b_root : option nat; b_free : option nat }.
Arguments mk_bst {D}. Arguments b_heap {D}. Arguments b_next {D}. Arguments b_root {D}. Arguments b_free {D}.

Section Bst.
Context {D : Type} (cmp : D -> D -> Z).

(** Bst_Init 317-339 and Bst_Reset 305-310. *)
Definition bst_init : bst D := mk_bst (fun _ => None) 0 None None.

(** Access through a node pointer. bst.c 7-315. *)
Definition deref (b : bst D) (a : nat) : outcome (node D) :=
  match b_heap b a with Some n => Ret n | None => UBR end.
(** Writing a node back to the heap: the assignments to Parent, Left, Right and the data in bst.c 7-315. *)
Definition store (b : bst D) (a : nat) (n : node D) : bst D :=
  mk_bst (fun x => if Nat.eqb x a then Some n else b_heap b x) (b_next b) (b_root b) (b_free b).
(** Assignment to t->Root, bst.c 25-303. *)
Definition set_root (b : bst D) (r : option nat) : bst D := mk_bst (b_heap b) (b_next b) r (b_free b).
(** Assignment to t->FreeList, bst.c 7-23 and 207-303. *)
Definition set_free (b : bst D) (r : option nat) : bst D := mk_bst (b_heap b) (b_next b) (b_root b) r.
(** p->Parent = v, p->Left = v, p->Right = v. bst.c 25-303. *)
Definition set_par (b : bst D) (a : nat) (v : option nat) : outcome (bst D) :=
  let! n := deref b a in Ret (store b a (mk_node v (n_left n) (n_right n) (n_data n))).
(** Assignment to ->Left, bst.c 25-303. *)
Definition set_left (b : bst D) (a : nat) (v : option nat) : outcome (bst D) :=
  let! n := deref b a in Ret (store b a (mk_node (n_par n) v (n_right n) (n_data n))).
(** Assignment to ->Right, bst.c 25-303. *)
Definition set_right (b : bst D) (a : nat) (v : option nat) : outcome (bst D) :=
  let! n := deref b a in Ret (store b a (mk_node (n_par n) (n_left n) v (n_data n))).

(** GetUnusedNode, 7-23.  The allocation succeeds.  A new node is filled by the caller. *)
Definition get_unused (b : bst D) : outcome (nat * bst D) :=
  match b_free b with
  | None => Ret (b_next b, mk_bst (b_heap b) (S (b_next b)) (b_root b) (b_free b))
  | Some a => let! n := deref b a in Ret (a, set_free b (n_right n))
  end.

(** InsertNode, 25-65; the assertions are not modelled. *)
Definition insert_node (b : bst D) (parent : option nat) (c : Z) (d : D) : outcome (nat * bst D) :=
  let! u := get_unused b in
  let (a, b1) := u in
  let! b2 := match parent with
             | None => Ret (set_root b1 (Some a))
             | Some p => if c <=? 0 then set_left b1 p (Some a) else set_right b1 p (Some a)
             end in
  Ret (a, store b2 a (mk_node parent None None d)).

(** Bst_Add, 67-105.  Loops over the depth of the tree get as many iterations as there are nodes. *)
Fixpoint add_loop (fuel : nat) (b : bst D) (cur : nat) (d : D) : outcome (nat * bst D) :=
  match fuel with
  | O => Fuel
  | S fuel' =>
    let! n := deref b cur in
    let c := cmp d (n_data n) in
    if c <=? 0 then
      match n_left n with None => insert_node b (Some cur) c d | Some l => add_loop fuel' b l d end
    else
      match n_right n with None => insert_node b (Some cur) c d | Some r => add_loop fuel' b r d end
  end.
(** Bst_Add, bst.c 67-105. *)
Definition bst_add (b : bst D) (d : D) : outcome (nat * bst D) :=
  match b_root b with
  | None => insert_node b None 0 d
  | Some r => add_loop (S (b_next b)) b r d
  end.

(** Bst_Search, 107-135. *)
Fixpoint search_loop (fuel : nat) (b : bst D) (cur : option nat) (k : D) : outcome (option nat) :=
  match fuel with
  | O => Fuel
  | S fuel' =>
    match cur with
    | None => Ret None
    | Some a =>
      let! n := deref b a in
      let c := cmp k (n_data n) in
      if c =? 0 then Ret (Some a)
      else if c <? 0 then search_loop fuel' b (n_left n) k
      else search_loop fuel' b (n_right n) k
    end
  end.
(** Bst_Search, bst.c 107-135. *)
Definition bst_search (b : bst D) (k : D) (last : option nat) : outcome (option nat) :=
  let! start := match last with
                | None => Ret (b_root b)
                | Some a => let! n := deref b a in Ret (n_left n)
                end in
  search_loop (S (b_next b)) b start k.

(** Bst_Enum, 137-159: [cb] is the callback with its argument as a state; its second result is
    "other than 0", i.e. stop. *)
Fixpoint enum_inner {S : Type} (fuel : nat) (b : bst D) (cb : S -> nat -> D -> S * bool) (o : option nat) (st : S * bool)
  : outcome (S * bool) :=
  match fuel with
  | O => Fuel
  | Datatypes.S fuel' =>
    match o with
    | None => Ret st
    | Some a =>
      if snd st then Ret st
      else let! n := deref b a in
           let! st1 := enum_inner fuel' b cb (n_left n) (cb (fst st) a (n_data n)) in
           enum_inner fuel' b cb (n_right n) st1
    end
  end.
(** Bst_Enum, bst.c 155-159. *)
Definition bst_enum {S : Type} (b : bst D) (cb : S -> nat -> D -> S * bool) (s : S) : outcome S :=
  let! r := enum_inner (Datatypes.S (b_next b)) b cb (b_root b) (s, false) in Ret (fst r).

(** Bst_Minimum, 161-185. *)
Fixpoint min_loop (fuel : nat) (b : bst D) (a : nat) : outcome nat :=
  match fuel with
  | O => Fuel
  | S fuel' => let! n := deref b a in
               match n_left n with None => Ret a | Some l => min_loop fuel' b l end
  end.
(** Bst_Minimum, bst.c 161-185. *)
Definition bst_minimum (b : bst D) (sub : option nat) : outcome (option nat) :=
  match sub with
  | Some a => let! r := min_loop (S (b_next b)) b a in Ret (Some r)
  | None => match b_root b with
            | None => Ret None
            | Some a => let! r := min_loop (S (b_next b)) b a in Ret (Some r)
            end
  end.

(** Comparison of pointers, as in bst.c 187-303. *)
Definition ptr_eqb (a b : option nat) : bool :=
  match a, b with Some x, Some y => Nat.eqb x y | None, None => true | _, _ => false end.

(** Bst_Successor, 187-205. *)
Fixpoint up_loop (fuel : nat) (b : bst D) (cur : nat) (parent : option nat) : outcome (option nat) :=
  match fuel with
  | O => Fuel
  | S fuel' =>
    match parent with
    | None => Ret None
    | Some p => let! n := deref b p in
                if ptr_eqb (n_left n) (Some cur) then Ret (Some p) else up_loop fuel' b p (n_par n)
    end
  end.
(** Bst_Successor, bst.c 187-205. *)
Definition bst_successor (b : bst D) (a : nat) : outcome (option nat) :=
  let! n := deref b a in
  match n_right n with
  | Some r => bst_minimum b (Some r)
  | None => up_loop (S (b_next b)) b a (n_par n)
  end.

(** 243-258 and 265-275: what pointed to [old] (the root pointer or a child pointer of [parent]) now points to [new]. *)
Definition set_child (b : bst D) (parent : option nat) (old : nat) (new : option nat) : outcome (bst D) :=
  match parent with
  | None => Ret (set_root b new)
  | Some p => let! n := deref b p in
              if ptr_eqb (n_left n) (Some old) then set_left b p new else set_right b p new
  end.

(** 225-258: [a], which has at most one child, is taken out of the tree. *)
Definition splice_out (b : bst D) (a : nat) : outcome (bst D) :=
  let! n := deref b a in
  let child := match n_left n with Some l => Some l | None => n_right n end in
  let! b1 := match child with Some c => set_par b c (n_par n) | None => Ret b end in
  set_child b1 (n_par n) a child.

(** 260-297: [ar] takes the place of [cur]. *)
Definition replace_node (b : bst D) (cur ar : nat) : outcome (bst D) :=
  let! n := deref b cur in
  let! b1 := set_child b (n_par n) cur (Some ar) in
  let! b2 := match n_left n with Some l => set_par b1 l (Some ar) | None => UBR end in
  let! b3 := match n_right n with Some r => set_par b2 r (Some ar) | None => Ret b2 end in
  let! m := deref b3 ar in
  Ret (store b3 ar (mk_node (n_par n) (n_left n) (n_right n) (n_data m))).

(** Bst_Delete, 207-303. *)
Definition bst_delete (b : bst D) (cur : nat) : outcome (bst D) :=
  let! n := deref b cur in
  let! ar := match n_left n, n_right n with
             | Some _, Some _ => let! s := bst_successor b cur in match s with Some x => Ret x | None => UBR end
             | _, _ => Ret cur
             end in
  let! b1 := splice_out b ar in
  let! b2 := if Nat.eqb ar cur then Ret b1 else replace_node b1 cur ar in
  let! b3 := set_right b2 cur (b_free b2) in
  Ret (set_free b3 (Some cur)).

End Bst.
