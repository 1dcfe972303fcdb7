(** Model of the cache's file: what the file holds while the cache is in a given state, and how a file is taken at the start,
    dnscache.c 50-57, 108-190 and 215-345, cacheht.c 17-60, common.h 219-223.

    The file is mapped into memory (MAP_SHARED), so it holds the bytes of the area whenever the program has ended.  The layout is
    that of a 64-bit little-endian system (time_t and pointers have 8 bytes). *)
From Verif Require Import Base Cht_Model.

(** The [k] bytes of an integer in memory. dnscache.c 50-57. *)
Fixpoint le (k : nat) (v : Z) : list Z := match k with O => [] | S k' => v mod 256 :: le k' (v / 256) end.
(** Reading them as an unsigned integer. dnscache.c 50-57. *)
Fixpoint unle (l : list Z) : Z := match l with [] => 0 | b :: r => b + 256 * unle r end.
(** int32_t and, for TimeAdded, a 64-bit time_t. cacheht.h 7-15. *)
Definition s32 (v : Z) : Z := if v <? 2147483648 then v else v - 4294967296.
(** A 64-bit time_t. cacheht.h 12. *)
Definition s64 (v : Z) : Z := if v <? 9223372036854775808 then v else v - 18446744073709551616.

(** CACHE_VERSION, dnscache.c 14. *)
Definition CACHE_VERSION := 23.
(** "\nDo not edit this file.\n", dnscache.c 156. *)
Definition note : list Z :=
  [10; 68; 111; 32; 110; 111; 116; 32; 101; 100; 105; 116; 32; 116; 104; 105; 115; 32; 102; 105; 108; 101; 46; 10].

(** An element of NodeChunk, cacheht.h 7-15. *)
Definition node_bytes (n : cnode) : list Z :=
  le 4 (n_slot n) ++ le 4 (n_next n) ++ le 4 (Z.of_nat (n_off n)) ++ le 4 (n_ttl n) ++ le 8 (n_time n) ++
  le 4 (Z.of_nat (n_len n)) ++ le 4 (n_used n).
(** struct _Header, dnscache.c 50-57, with CacheHT, cacheht.h 27-31, and Array, array.h 6-31.  [pn] and [ps] are the two Data
    pointers; the padding is 0 (CreateNewCache clears everything, 148). *)
Definition header_bytes (pn ps : Z) (c : cache) : list Z :=
  le 4 CACHE_VERSION ++ le 4 (Z.of_nat (c_size c)) ++ le 4 (Z.of_nat (c_end c)) ++ le 4 (c_count c) ++
  le 8 pn ++ le 4 32 ++ le 4 (Z.of_nat (length (c_nodes c))) ++ le 4 (-1) ++ le 4 0 ++
  le 8 ps ++ le 4 4 ++ le 4 (Z.of_nat (length (c_slots c))) ++ le 4 (Z.of_nat (length (c_slots c))) ++ le 4 0 ++
  le 4 (c_free c) ++ le 4 0 ++ note ++ repeat 0 32.
(** The whole area: the header, the records, the nodes (the last one first) and the slots. dnscache.c 50-57, cacheht.c 30-52. *)
Definition image (pn ps : Z) (c : cache) : list Z :=
  header_bytes pn ps c ++ firstn (bottom c - header_size) (skipn header_size (c_mem c)) ++
  concat (map node_bytes (rev (c_nodes c))) ++ concat (map (le 4) (c_slots c)).

(** A field of [k] bytes at MapStart + [a]. dnscache.c 108-142. *)
Definition field (k : nat) (m : list Z) (a : Z) : outcome Z :=
  if a <? 0 then UBR else match slice m (Z.to_nat a) k with Some l => Ret (unle l) | None => UBR end.
(** The same for an int32_t, dnscache.c 108-142. *)
Definition i32 (m : list Z) (a : Z) : outcome Z := let! v := field 4 m a in Ret (s32 v).
(** A node at MapStart + [a], cacheht.h 7-15.  A negative Offset becomes 0 (no read below the area is modelled). *)
Definition node_at (m : list Z) (a : Z) : outcome cnode :=
  let! s := i32 m a in let! x := i32 m (a + 4) in let! o := i32 m (a + 8) in let! t := field 4 m (a + 12) in
  let! w := field 8 m (a + 16) in let! l := field 4 m (a + 24) in let! u := i32 m (a + 28) in
  Ret (mk_cn s x (Z.to_nat o) t (s64 w) (Z.to_nat l) u).
(** The elements [0 .. k-1] of an array, Array_GetBySubscript, array.c 38-51. *)
Fixpoint elements {A} (get : Z -> outcome A) (k : nat) : outcome (list A) :=
  match k with O => Ret [] | S k' => let! l := elements get k' in let! x := get (Z.of_nat k') in Ret (l ++ [x]) end.
(** The address of an element, array.c 38-51. *)
Definition element (data len alloc i : Z) : Z := data + len * (if alloc <? 0 then - i else i).

(** ReloadCache, dnscache.c 127-142, with CacheHT_ReInit, cacheht.c 54-60: nothing is read but the sizes of the two arrays; what
    the accesses find later on is collected here, all elements at once, as the state of the cache. *)
Definition reload (m : list Z) (size : nat) : outcome cache :=
  let! fin := i32 m 8 in let! count := i32 m 12 in
  let! dn := i32 m 24 in let! un := i32 m 28 in let! an := i32 m 32 in
  let! ds := i32 m 48 in let! us := i32 m 52 in let! as_ := i32 m 56 in
  let! free := i32 m 64 in
  let sdata := Z.of_nat size - ds * us in
  let ndata := sdata - dn in
  let! slots := elements (fun i => i32 m (element sdata ds as_ i)) (Z.to_nat us) in
  let! nodes := elements (fun i => node_at m (element ndata dn an i)) (Z.to_nat un) in
  Ret (mk_cache size slots nodes free (Z.to_nat fin) count m).

(** IsReloadable, dnscache.c 108-125. *)
Definition is_reloadable (m : list Z) (size : nat) : outcome bool :=
  let! v := field 4 m 0 in let! s := i32 m 4 in Ret ((v =? CACHE_VERSION) && (s =? Z.of_nat size)).

(** ROUND_UP, utils.h 9-11. *)
Definition round_up (v base : Z) : Z := Z.quot (v + base - 1) base * base.

(** The options, dnscache.c 217-231, 274 and 334. *)
Record cconf := mk_cf { cf_use : bool; cf_size : Z; cf_memory : bool; cf_reload : bool; cf_overwrite : bool }.
(** What the system lets the program do: allocate, open the file, write to it, map it. dnscache.c 274-327. *)
Record grants := mk_gr { g_alloc : bool; g_open : bool; g_write : bool; g_map : bool }.

Section Init.
(** pow(log(CacheSize), 2), cacheht.c 24. *)
Context (big : Z -> Z).

(** CacheHT_CalculateSlotCount, cacheht.c 17-28. *)
Definition slot_count (size : Z) : Z :=
  let pre := if size <? 1048576 then Z.quot size 4979 - 18 else big size in Z.quot (pre + 5) 10 * 10 + 7.

(** CreateNewCache, dnscache.c 144-168. *)
Definition new_cache (size : Z) : cache := cache_init (Z.to_nat size) (Z.to_nat (slot_count size)).

(** The file after CREATE_FILE_MAPPING, common.h 220: a NUL is written at [size]; a shorter file is filled with NULs. *)
Definition grown (f : list Z) (size : nat) : list Z := firstn size (f ++ repeat 0 size) ++ 0 :: skipn (S size) f.

(** InitCacheInfo, dnscache.c 170-190, on the mapped bytes: [None] is -1. *)
Definition init_info (cf : cconf) (m : list Z) (size : Z) (again : bool) : outcome (option cache) :=
  if again then
    let! ok := is_reloadable m (Z.to_nat size) in
    if ok : bool then let! c := reload m (Z.to_nat size) in Ret (Some c)
    else if cf_overwrite cf then Ret (Some (new_cache size)) else Ret None
  else Ret (Some (new_cache size)).

(** DNSCache_Init, dnscache.c 215-360: the value returned, the cache and the file ([None]: there is none).  Left out: CacheControl
    and the other TTL options 242-264, the locks and the task 342-357.  The file is given as it is right after the start; for a
    new cache the bytes written into the mapping follow with the first page that is written back. *)
Definition dns_cache_init (cf : cconf) (g : grants) (file : option (list Z)) : outcome (Z * option cache * option (list Z)) :=
  if negb (cf_use cf) then Ret (0, None, file)
  else
    let size := round_up (cf_size cf) 16 in
    if size <? 102400 then Ret (1, None, file)
    else if cf_memory cf then
      if g_alloc g then Ret (0, Some (new_cache size), file) else Ret (2, None, file)
    else if negb (g_open g) then Ret (3, None, file)
    else
      let old := match file with Some f => f | None => [] end in
      if negb (g_write g) then Ret (4, None, Some old)
      else
        let f := grown old (Z.to_nat size) in
        if negb (g_map g) then Ret (5, None, Some f)
        else
          let! c := init_info cf (firstn (Z.to_nat size) f) size (match file with Some _ => cf_reload cf | None => false end) in
          match c with Some c => Ret (0, Some c, Some f) | None => Ret (6, None, Some f) end.
End Init.
