(** What a user of the ordered set may do and the bookkeeping of what it should contain. *)
From Verif Require Import Base Bst_Model.

Section Spec.
Context {D : Type} (cmp : D -> D -> Z).

(** The pairs without the one at address [a]. *)
Definition drop (a : nat) (live : list (nat * D)) : list (nat * D) := filter (fun x => negb (Nat.eqb (fst x) a)) live.

(** [history P b live]: [b] is the result of additions (of elements in [P]), of deletions of elements that are present,
    and of resets; [live] are the elements added and not deleted since, with the addresses returned by the additions. *)
Inductive history (P : D -> Prop) : bst D -> list (nat * D) -> Prop :=
| H_init : history P bst_init []
| H_add b live d a b' : history P b live -> P d -> bst_add cmp b d = Ret (a, b') -> history P b' ((a, d) :: live)
| H_delete b live a d b' : history P b live -> In (a, d) live -> bst_delete b a = Ret b' -> history P b' (drop a live).

(** The same without deletions. *)
Inductive additions (P : D -> Prop) : bst D -> list (nat * D) -> Prop :=
| A_init : additions P bst_init []
| A_add b live d a b' : additions P b live -> P d -> bst_add cmp b d = Ret (a, b') -> additions P b' ((a, d) :: live).

(** The comparison orders the elements of [P]. *)
Definition orders (P : D -> Prop) : Prop :=
  (forall x y, P x -> P y -> (cmp x y < 0 <-> 0 < cmp y x) /\ (cmp x y = 0 <-> cmp y x = 0)) /\
  (forall x y z, P x -> P y -> P z -> cmp x y <= 0 -> cmp y z <= 0 -> cmp x z <= 0).

(** Searching repeatedly, each time after the last element found. *)
Fixpoint search_all (fuel : nat) (b : bst D) (k : D) (last : option nat) : outcome (list nat) :=
  match fuel with
  | O => Fuel
  | S fuel' =>
    let! r := bst_search cmp b k last in
    match r with
    | None => Ret []
    | Some a => let! l := search_all fuel' b k (Some a) in Ret (a :: l)
    end
  end.

(** Going through the elements with Minimum and Successor. *)
Fixpoint successors (fuel : nat) (b : bst D) (a : option nat) : outcome (list nat) :=
  match fuel, a with
  | O, _ => Fuel
  | S _, None => Ret []
  | S fuel', Some x => let! s := bst_successor b x in let! l := successors fuel' b s in Ret (x :: l)
  end.
End Spec.
