(** Model of the growable arrays (array.c), of the append-only buffer (stablebuffer.c) and of the server list (addresslist.c). *)
From Verif Require Import Base.

(** struct _Array, array.h 6-32, growing up: [a_data] is the memory behind Data, Allocated rooms of DataLength bytes.
    Sizes are taken not to overflow an int. *)
Record array := mk_arr { a_data : list Z; a_len : nat; a_used : nat; a_alloc : nat }.
(** Array_Init with GrowsDown == FALSE, array.c 7-29 ([None]: the memory cannot be had). *)
Definition array_init (len count : nat) (ok : bool) : option array :=
  if Nat.ltb 0 count then if ok then Some (mk_arr (repeat 0 (len * count)) len 0 count) else None else Some (mk_arr [] len 0 0).
(** Array_GetBySubscript, 38-51: the position of the element in the memory. *)
Definition array_get (a : array) (i : Z) : option nat := if (0 <=? i) && (i <? Z.of_nat (a_used a)) then Some (a_len a * Z.to_nat i)%nat else None.
(** Array_GetNext, 66-86; [None] is NULL. *)
Definition array_next (a : array) (pos : option nat) : option nat :=
  let n := match pos with None => 0%nat | Some p => S (p / a_len a) end in
  if Nat.leb (a_used a) n then None else Some (n * a_len a)%nat.
(** SafeRealloc: the new memory starts with the old one; what follows ([junk]) is arbitrary. array.c 89-152. *)
Definition regrow (d : list Z) (n : nat) (junk : nat -> Z) : list Z := firstn n d ++ map junk (seq 0 (n - length d)).
(** Array_PushBack, 89-109; [ok]: whether the memory can be had, if more is needed; [None] for Data: NULL. *)
Definition array_push (ok : bool) (junk : nat -> Z) (a : array) (d : option (list Z)) : outcome (Z * array) :=
  let grown :=
    if Nat.eqb (a_used a) (a_alloc a) then
      let n := if Nat.ltb (a_alloc a) 2 then 2%nat else (a_alloc a + a_alloc a / 2)%nat in
      if ok then Some (mk_arr (regrow (a_data a) (n * a_len a) junk) (a_len a) (a_used a) n) else None
    else Some a in
  match grown with
  | None => Ret (-1, a)
  | Some a1 =>
    let! m := match d with
              | None => Ret (a_data a1)
              | Some d => match slice d 0 (a_len a1) with
                          | None => UBR
                          | Some x => match write (a_data a1) (a_len a1 * a_used a1) x with None => UBW | Some m => Ret m end
                          end
              end in
    Ret (Z.of_nat (a_used a1), mk_arr m (a_len a1) (S (a_used a1)) (a_alloc a1))
  end.
(** Array_SetToSubscript, 124-142; [None] is NULL. *)
Definition array_set (ok : bool) (junk : nat -> Z) (a : array) (i : nat) (d : list Z) : outcome (option nat * array) :=
  let grown :=
    if Nat.leb (a_alloc a) i then
      if ok then Some (mk_arr (regrow (a_data a) (S i * a_len a) junk) (a_len a) (a_used a) (S i)) else None
    else Some a in
  match grown with
  | None => Ret (None, a)
  | Some a1 =>
    match slice d 0 (a_len a1) with
    | None => UBR
    | Some x =>
      match write (a_data a1) (a_len a1 * i) x with
      | None => UBW
      | Some m => Ret (Some (a_len a1 * i)%nat, mk_arr m (a_len a1) (Nat.max (a_used a1) (S i)) (a_alloc a1))
      end
    end
  end.

(** Arrays growing down, Allocated == -1: inside the caller's memory [m]; addresses are positions in it. *)
Record darray := mk_darr { d_first : Z; d_len : nat; d_used : nat }.
(** Array_Init 29-32. *)
Definition darray_init (len : nat) (first : Z) : darray := mk_darr first len 0.
(** The address of an element of a growing-down array, Array_GetBySubscript array.c 38-51. *)
Definition d_addr (a : darray) (i : nat) : Z := d_first a + (-1) * Z.of_nat (d_len a) * Z.of_nat i.
(** Array_GetBySubscript 38-51. *)
Definition darray_get (a : darray) (i : Z) : option Z := if (0 <=? i) && (i <? Z.of_nat (d_used a)) then Some (d_first a + Z.of_nat (d_len a) * ((-1) * i)) else None.
(** Array_PushBack 110-121; the memory is written only inside of [m]. *)
Definition darray_push (m : list Z) (a : darray) (d : option (list Z)) (bound : option Z) : outcome (Z * darray * list Z) :=
  if match bound with None => false | Some b => d_addr a (d_used a) <? b end then Ret (-1, a, m)
  else
    let! m' := match d with
               | None => Ret m
               | Some d => match slice d 0 (d_len a) with
                           | None => UBR
                           | Some x => if d_addr a (d_used a) <? 0 then UBW
                                       else match write m (Z.to_nat (d_addr a (d_used a))) x with None => UBW | Some m' => Ret m' end
                           end
               end in
    Ret (Z.of_nat (d_used a), mk_darr (d_first a) (d_len a) (S (d_used a)), m').

(** * stablebuffer.c *)
(** StableBuffer_MetaInfo, stablebuffer.h 6-10: one block of memory; an address is the number of the block and an offset. *)
Record block := mk_block { bk_mem : list Z; bk_used : nat }.
(** struct _StableBuffer, stablebuffer.h: the meta array of blocks (stablebuffer.c 124-132). *)
Definition sbuf := list block.
(** ROUND_UP, utils.h 9 and 11. *)
Definition round_up (v b : nat) : nat := ((v + b - 1) / b * b)%nat.
(** NeedRealloc 5-26, Realloc 28-52, WriteHere 54-81: the array of blocks is modelled as a list (its own growth is that of
    Array_PushBack).  [None]: the memory for a new block cannot be had. *)
Definition write_here (ok : bool) (junk : nat -> Z) (s : sbuf) (n : nat) : option (nat * nat) * sbuf :=
  let need := match rev s with [] => true | b :: _ => Nat.ltb (length (bk_mem b) - bk_used b) n end in
  if need then
    if ok then (Some (length s, 0%nat), s ++ [mk_block (map junk (seq 0 (round_up (n * S (length s)) 8))) n]) else (None, s)
  else match rev s with
       | [] => (None, s)
       | b :: r => (Some (length s - 1, bk_used b)%nat, rev (mk_block (bk_mem b) (bk_used b + n) :: r))
       end.
(** Add, 83-100. *)
Definition sbuf_add (ok : bool) (junk : nat -> Z) (s : sbuf) (d : option (list Z)) (len : nat) (align : bool) : outcome (option (nat * nat) * sbuf) :=
  let (wh, s1) := write_here ok junk s (if align then round_up len 8 else len) in
  match wh, d with
  | Some (k, o), Some x =>
    match slice x 0 len, nth_error s1 k with
    | None, _ => UBR
    | _, None => UBW
    | Some y, Some b =>
      match write (bk_mem b) o y with
      | None => UBW
      | Some m => Ret (Some (k, o), firstn k s1 ++ mk_block m (bk_used b) :: skipn (S k) s1)
      end
    end
  | _, _ => Ret (wh, s1)
  end.

(** * addresslist.c *)
(** struct _AddressList, addresslist.h 11-22, with the entries as a list; Counter has 32 bits. *)
Record addrlist {A : Type} := mk_al { al_list : list A; al_counter : Z }.
Arguments addrlist : clear implicits.
Arguments mk_al {A}.
(** AddressList_Init 8-22 and AddressList_Add 25-39. *)
Definition al_init {A} : addrlist A := mk_al [] 0.
(** AddressList_Add, addresslist.c 25-39. *)
Definition al_add {A} (a : addrlist A) (x : A) : addrlist A := mk_al (al_list a ++ [x]) (al_counter a).
(** AddressList_Advance 130-138. *)
Definition al_advance {A} (a : addrlist A) : addrlist A := mk_al (al_list a) ((al_counter a + 1) mod 4294967296).
(** AddressList_GetOne 162-165 and GetOneBySubscript 140-160: an unsigned remainder; the program is stopped if the list is empty. *)
Definition al_get {A} (a : addrlist A) : outcome (option A) :=
  if Nat.eqb (length (al_list a)) 0 then UBR
  else let i := al_counter a mod Z.of_nat (length (al_list a)) in
       Ret (if (0 <=? i) && (i <? Z.of_nat (length (al_list a))) then nth_error (al_list a) (Z.to_nat i) else None).
(** The entries of a family, AddressList_GetPtrListOfFamily 167-196. *)
Definition al_family {A} (fam : A -> bool) (a : addrlist A) : list A := filter fam (al_list a).
