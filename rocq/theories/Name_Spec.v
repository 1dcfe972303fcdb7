(** Specification of domain names, independent of the model: text form, wire form and the RFC 1035
    meaning of an offset in a packet. *)
From Verif Require Import Base.

(** Labels joined with dots. *)
Fixpoint dotted (ls : list (list Z)) : list Z :=
  match ls with
  | [] => []
  | [l] => l
  | l :: ls' => l ++ 46 :: dotted ls'
  end.

(** Uncompressed wire form: each label preceded by its length, then the root. *)
Fixpoint wire (ls : list (list Z)) : list Z :=
  match ls with
  | [] => [0]
  | l :: ls' => Z.of_nat (length l) :: l ++ wire ls'
  end.

(** A label: non-empty, at most [mx] bytes, no dot and no NUL inside. *)
Definition good_label (mx : nat) (l : list Z) : Prop :=
  (1 <= length l <= mx)%nat /\ Forall (fun c => 0 < c < 256 /\ c <> 46) l.

(** [denotes mx m o ls w]: the name at offset [o] of packet [m] consists of the labels [ls], each at
    most [mx] bytes long, and [w] bytes are occupied at [o] itself (up to and including the root
    or the first compression pointer).  RFC 1035 has mx = 63.  Being an inductive definition,
    names with looping pointers denote nothing. *)
Inductive denotes (mx : nat) (m : list Z) : nat -> list (list Z) -> nat -> Prop :=
| D_root o : nth_error m o = Some 0 -> denotes mx m o [] 1
| D_label o n l ls w :
    nth_error m o = Some (Z.of_nat n) -> (1 <= n <= mx)%nat ->
    slice m (S o) n = Some l ->
    denotes mx m (S o + n) ls w ->
    denotes mx m o (l :: ls) (S n + w)
| D_ptr o hi lo ls w :
    nth_error m o = Some hi -> nth_error m (S o) = Some lo ->
    192 <= hi < 256 -> 0 <= lo < 256 ->
    denotes mx m (Z.to_nat ((hi - 192) * 256 + lo)) ls w ->
    denotes mx m o ls 2.

(** Bytes needed in the output buffer, terminator included. *)
Definition text_space (ls : list (list Z)) : nat := S (length (dotted ls)).

(** Only the extent of a name: labels up to a root or a pointer. *)
Inductive extent (m : list Z) : nat -> nat -> Prop :=
| E_root o : nth_error m o = Some 0 -> extent m o 1
| E_ptr o hi : nth_error m o = Some hi -> 192 <= hi -> extent m o 2
| E_label o n w : nth_error m o = Some (Z.of_nat n) -> (1 <= n <= 191)%nat ->
    extent m (S o + n) w -> extent m o (S n + w).
