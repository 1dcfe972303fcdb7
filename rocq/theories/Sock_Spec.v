(** What a set of sockets with data is: a list of sockets, each once, each with the data it was added with. *)
From Verif Require Import Base Bst_Model Sock_Model.

(** The list without the socket [s]. *)
Definition without {D} (s : Z) (live : list (Z * D)) : list (Z * D) := filter (fun x => negb (fst x =? s)) live.

(** [pool_of zero p live]: [p] is the result of additions (of sockets that are not in it, below 1024) and deletions; [live] are the
    sockets added and not deleted since, with the data they were added with. *)
Inductive pool_of {D} (zero : D) : puller D -> list (Z * D) -> Prop :=
| PO_init : pool_of zero pl_init []
| PO_add p live s d p' c : pool_of zero p live -> 0 <= s < 1024 -> ~ In s (map fst live) -> pl_add p s d = Ret (c, p') -> pool_of zero p' ((s, d) :: live)
| PO_del p live s p' : pool_of zero p live -> pl_del zero p s = Ret p' -> pool_of zero p' (without s live).
