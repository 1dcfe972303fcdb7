(** Model of the cache's storage: cacheht.c (hash index and free chunks), the growing-down array of array.c and the
    allocation of chunks of dnscache.c 382-408. *)
From Verif Require Import Base Hash_Model Sht_Model.

(** Cht_Node, cacheht.h 7-15.  The same bytes are Cht_2DList, cacheht.h 17-25, while the node is free: Slot is KeyNext,
    Next is ValNext, UsedLength is Count, the others keep their meaning.  -1 (any negative number) ends a chain.
    The counter of uses (int32_t) does not wrap in the model. *)
Record cnode := mk_cn { n_slot : Z; n_next : Z; n_off : nat; n_ttl : Z; n_time : Z; n_len : nat; n_used : Z }.

(** The cache area: struct _Header (dnscache.c 50-57), CacheHT (cacheht.h 27-31) and the bytes from MapStart on.
    [c_size] is CacheSize, [c_slots] the Slots array (4 bytes each, the last of the area), [c_nodes] the NodeChunk array
    (32 bytes each, going down from below the slots), [c_free] Free2DList, [c_end] End, [c_count] CacheCount.
    [c_mem] holds the bytes of the records; the bytes of the two arrays are in [c_slots] and [c_nodes] instead. *)
Record cache := mk_cache
  { c_size : nat; c_slots : list Z; c_nodes : list cnode; c_free : Z; c_end : nat; c_count : Z; c_mem : list Z }.

(** sizeof(struct _Header), dnscache.c 50-57. *)
Definition header_size : nat := 128.
(** sizeof(int32_t), the element size of Slots, cacheht.c 30-52. *)
Definition slot_size : nat := 4.
(** sizeof(Cht_Node), cacheht.h 7-15. *)
Definition node_size : nat := 32.

(** The lowest address of the nodes: Array_GetBySubscript 38-51 with Allocated < 0, CacheHT_Init 34-47. *)
Definition bottom (c : cache) : nat := c_size c - slot_size * length (c_slots c) - node_size * length (c_nodes c).

(** Assignment to h->NodeChunk, cacheht.h 27-31. *)
Definition with_nodes (c : cache) (ns : list cnode) : cache :=
  mk_cache (c_size c) (c_slots c) ns (c_free c) (c_end c) (c_count c) (c_mem c).
(** Assignment to h->Slots, cacheht.h 27-31. *)
Definition with_slots (c : cache) (ss : list Z) : cache :=
  mk_cache (c_size c) ss (c_nodes c) (c_free c) (c_end c) (c_count c) (c_mem c).
(** Assignment to h->Free2DList, cacheht.h 27-31. *)
Definition with_free (c : cache) (f : Z) : cache :=
  mk_cache (c_size c) (c_slots c) (c_nodes c) f (c_end c) (c_count c) (c_mem c).
(** Assignment to *CacheEnd, dnscache.c 44. *)
Definition with_end (c : cache) (e : nat) : cache :=
  mk_cache (c_size c) (c_slots c) (c_nodes c) (c_free c) e (c_count c) (c_mem c).
(** Assignment to *CacheCount, dnscache.c 42. *)
Definition with_count (c : cache) (k : Z) : cache :=
  mk_cache (c_size c) (c_slots c) (c_nodes c) (c_free c) (c_end c) k (c_mem c).
(** A write to the data area, dnscache.c 461-631. *)
Definition with_mem (c : cache) (m : list Z) : cache :=
  mk_cache (c_size c) (c_slots c) (c_nodes c) (c_free c) (c_end c) (c_count c) m.

(** Array_GetBySubscript, array.c 38-51: [None] is NULL. *)
Definition getn (c : cache) (i : Z) : option cnode := if i <? 0 then None else nth_error (c_nodes c) (Z.to_nat i).
(** The same where the code dereferences the pointer at once. cacheht.c 62-420. *)
Definition derefn (c : cache) (i : Z) : outcome cnode := match getn c i with Some n => Ret n | None => UBR end.
(** Assigning fields of a node. cacheht.c 62-420. *)
Definition setn (c : cache) (i : Z) (n : cnode) : cache := with_nodes c (lset (c_nodes c) (Z.to_nat i) n).

(** Field assignments. cacheht.h 7-15. *)
Definition n_set_slot (n : cnode) (v : Z) := mk_cn v (n_next n) (n_off n) (n_ttl n) (n_time n) (n_len n) (n_used n).
(** Assignment to Next (ValNext), cacheht.h 7-25. *)
Definition n_set_next (n : cnode) (v : Z) := mk_cn (n_slot n) v (n_off n) (n_ttl n) (n_time n) (n_len n) (n_used n).
(** Assignment to Offset, cacheht.h 7-15. *)
Definition n_set_off (n : cnode) (v : nat) := mk_cn (n_slot n) (n_next n) v (n_ttl n) (n_time n) (n_len n) (n_used n).
(** Assignment to TTL, cacheht.h 7-15. *)
Definition n_set_ttl (n : cnode) (v : Z) := mk_cn (n_slot n) (n_next n) (n_off n) v (n_time n) (n_len n) (n_used n).
(** Assignment to TimeAdded, cacheht.h 7-15. *)
Definition n_set_time (n : cnode) (v : Z) := mk_cn (n_slot n) (n_next n) (n_off n) (n_ttl n) v (n_len n) (n_used n).
(** Assignment to UsedLength (Count), cacheht.h 7-25. *)
Definition n_set_used (n : cnode) (v : Z) := mk_cn (n_slot n) (n_next n) (n_off n) (n_ttl n) (n_time n) (n_len n) v.

(** CreateNewCache, dnscache.c 144-168, with CacheHT_Init, cacheht.c 30-52, for [slots] slots.  How many slots a size gets
    (CacheHT_CalculateSlotCount 17-28, with pow and log) is not modelled. *)
Definition cache_init (size slots : nat) : cache :=
  mk_cache size (repeat (-1) slots) [] (-1) header_size 0 (repeat 0 size).

(** CacheHT_CreateNewNode, 62-87, with Array_PushBack, array.c 108-121, boundary MapStart + [bound]: [None] is -1.  The
    fields not assigned hold what was in memory before; the caller assigns them before they are read, here they are 0. *)
Definition create_node (c : cache) (chunk bound : nat) : option (Z * cache) :=
  let used := length (c_nodes c) in
  (* Data - 32 * Used < Boundary *)
  if Nat.ltb (c_size c) (bound + node_size * (used + 1) + slot_size * length (c_slots c)) then None
  else Some (Z.of_nat used, with_nodes c (c_nodes c ++ [mk_cn 0 (-1) 0 0 0 chunk 0])).

(** cacheht.c 8. *)
Definition USED_GRADIENT := 5.
(** cacheht.c 9. *)
Definition IDLE_TIME_SEC := 59.

(** CacheHT_FindUnusedNode, 102-202: the node number and whether NewCreated; [None] is -1.  [pre] and [grand] are the
    numbers of PreHead and GrandHead. *)
Fixpoint find_unused_loop (fuel : nat) (c : cache) (chunk bound : nat) (now : Z) (sub : Z) (pre grand : option Z)
  : outcome (option Z * bool * cache) :=
  match fuel with
  | O => Fuel
  | S fuel' =>
    if sub <? 0 then
      match create_node c chunk bound with
      | Some (i, c') => Ret (Some i, true, c')
      | None => Ret (None, true, c)
      end
    else
      let! cur := derefn c sub in
      let! c1 := match pre with
                 | None => Ret c
                 | Some p =>
                   let! ph := derefn c p in
                   if (n_used cur <? n_used ph) && (IDLE_TIME_SEC <=? n_time ph - n_time cur)
                   then Ret (setn c p (n_set_time (n_set_used ph (n_used cur)) now)) else Ret c
                 end in
      if Nat.eqb (n_len cur) chunk then
        let cur1 := n_set_used (n_set_time cur now) (n_used cur + 1) in
        let c2 := setn c1 sub cur1 in
        let! c3 :=
          if 0 <=? n_next cur1 then
            let heir := n_next cur1 in
            let! h := derefn c2 heir in
            let h1 := n_set_used (n_set_time (n_set_slot h (n_slot cur1)) (n_time cur1)) (n_used cur1) in
            let c4 := setn c2 heir h1 in
            match pre with
            | None => Ret (with_free c4 heir)
            | Some p =>
              let! ph := derefn c4 p in
              if n_used h1 - n_used ph <? USED_GRADIENT then Ret (setn c4 p (n_set_slot ph heir))
              else
                let c5 := setn c4 p (n_set_slot ph (n_slot h1)) in
                let! h2 := derefn c5 heir in
                let c6 := setn c5 heir (n_set_slot h2 p) in
                match grand with
                | None => Ret (with_free c6 heir)
                | Some g => let! gh := derefn c6 g in Ret (setn c6 g (n_set_slot gh heir))
                end
            end
          else
            match pre with
            | None => Ret (with_free c2 (n_slot cur1))
            | Some p => let! ph := derefn c2 p in Ret (setn c2 p (n_set_slot ph (n_slot cur1)))
            end in
        let! cur2 := derefn c3 sub in
        Ret (Some sub, false, setn c3 sub (n_set_next (n_set_used cur2 0) (-1)))
      else find_unused_loop fuel' c1 chunk bound now (n_slot cur) (Some sub) pre
  end.
(** CacheHT_FindUnusedNode, cacheht.c 89-206. *)
Definition find_unused (c : cache) (chunk bound : nat) (now : Z) : outcome (option Z * bool * cache) :=
  find_unused_loop (S (length (c_nodes c))) c chunk bound now (c_free c) None None.

(** CacheHT_InsertToSlot, 208-238, for a node that exists; HashValue is NULL. *)
Definition slot_of (c : cache) (key : list Z) : nat := Z.to_nat (bkdr key mod Z.of_nat (length (c_slots c))).
(** CacheHT_InsertToSlot, cacheht.c 208-238. *)
Definition insert_to_slot (c : cache) (key : list Z) (i : Z) : outcome cache :=
  let s := slot_of c key in
  let! n := derefn c i in
  let c1 := setn c i (n_set_slot n (Z.of_nat s)) in
  match nth_error (c_slots c1) s with
  | None => Ret c1
  | Some head =>
    let! n1 := derefn c1 i in
    Ret (with_slots (setn c1 i (n_set_next n1 head)) (lset (c_slots c1) s i))
  end.

(** CacheHT_FindPredecessor, 240-262: the loop from 250. *)
Fixpoint pred_loop (fuel : nat) (c : cache) (next target : Z) : outcome (option Z) :=
  match fuel with
  | O => Fuel
  | S fuel' =>
    if next <? 0 then Ret None
    else
      let! n := derefn c next in
      if n_next n =? target then Ret (Some next) else pred_loop fuel' c (n_next n) target
  end.
(** CacheHT_FindPredecessor, cacheht.c 240-262. *)
Definition find_pred (c : cache) (head target : Z) : outcome (option Z) :=
  if head =? target then Ret None else pred_loop (S (length (c_nodes c))) c head target.

(** CacheHT_AddTo2DList, 267-344: the search, 278-291 ([cur] is CurHead before an iteration), giving Subscript and PreHead. *)
Fixpoint group_loop (fuel : nat) (c : cache) (len : nat) (sub : Z) (cur : option Z) : outcome (Z * option Z) :=
  match fuel with
  | O => Fuel
  | S fuel' =>
    if sub <? 0 then Ret (sub, cur)
    else
      let! n := derefn c sub in
      if Nat.eqb (n_len n) len then Ret (sub, cur) else group_loop fuel' c len (n_slot n) (Some sub)
  end.
(** CacheHT_AddTo2DList, cacheht.c 267-344. *)
Definition add_to_2d (c : cache) (i : Z) : outcome cache :=
  let! n := derefn c i in
  let! r := group_loop (S (length (c_nodes c))) c (n_len n) (c_free c) None in
  let '(sub, pre) := r in
  let! c1 :=
    if sub =? -1 then Ret (with_free (setn c i (n_set_used (n_set_slot n (c_free c)) 0)) i)
    else
      let! h := derefn c sub in
      let c2 := setn c i (n_set_used (n_set_slot n (n_slot h)) (n_used h)) in
      match pre with
      | None => Ret (with_free c2 i)
      | Some p => let! ph := derefn c2 p in Ret (setn c2 p (n_set_slot ph i))
      end in
  let! n1 := derefn c1 i in
  Ret (setn c1 i (n_set_next n1 sub)).

(** CacheHT_RemoveFromSlot, 346-383. *)
Definition remove_from_slot (c : cache) (i : Z) : outcome cache :=
  let! n := derefn c i in
  if n_slot n <? 0 then Ret c
  else
    match nth_error (c_slots c) (Z.to_nat (n_slot n)) with
    | None => Ret c
    | Some head =>
      let! p := find_pred c head i in
      let! c1 := match p with
                 | None => Ret (with_slots c (lset (c_slots c) (Z.to_nat (n_slot n)) (n_next n)))
                 | Some q => let! qn := derefn c q in Ret (setn c q (n_set_next qn (n_next n)))
                 end in
      if negb (i =? Z.of_nat (length (c_nodes c1)) - 1) then add_to_2d c1 i
      else Ret (with_nodes c1 (removelast (c_nodes c1)))
    end.

(** CacheHT_Get, 385-420: from a key ([None]) or from a node on; the number of the node, negative for NULL. *)
Definition ht_get (c : cache) (key : list Z) (start : option Z) : outcome (option Z) :=
  let! next := match start with
               | None => match nth_error (c_slots c) (slot_of c key) with None => UBR | Some h => Ret h end
               | Some i => let! n := derefn c i in Ret (n_next n)
               end in
  Ret (match getn c next with Some _ => Some next | None => None end).

(** Writing record bytes at MapStart + [off]: they must be inside the area and not on the index arrays. dnscache.c 461-631. *)
Definition mem_write (c : cache) (off : nat) (l : list Z) : outcome cache :=
  if Nat.ltb (bottom c) (off + length l) then UBW
  else match write (c_mem c) off l with Some m => Ret (with_mem c m) | None => UBW end.

(** CACHE_ROUND_UP, dnscache.c with utils.h 9-11. *)
Definition round16 (n : nat) : nat := Nat.div (n + 15) 16 * 16.

(** DNSCache_GetAvailableChunk, dnscache.c 382-408. *)
Definition get_chunk (c : cache) (len : nat) (now : Z) : outcome (option Z * cache) :=
  let r := round16 len in
  let! x := find_unused c r (c_end c + r) now in
  let '(o, created, c1) := x in
  match o with
  | None => Ret (None, c1)
  | Some i =>
    let! n := derefn c1 i in
    let c2 := if created : bool then with_end (setn c1 i (n_set_off n (c_end c1))) (c_end c1 + r) else c1 in
    let! n2 := derefn c2 i in
    let! c3 := mem_write c2 (n_off n2 + len) (repeat 254 (r - len)) in
    Ret (Some i, c3)
  end.
