(** Model of dnscache.c: storing records, looking them up, removing expired ones, answering from the cache. *)
From Verif Require Import Base Hash_Model Sht_Model Name_Model Gen_Model Cht_Model.

(** "%X" of a non-negative number, at most 8 digits. *)
Definition hex_digit (d : Z) : Z := if d <? 10 then 48 + d else 55 + d.
(** The digits of %X, most significant first; snprintf in dnscache.c 482-505 and 692-698. *)
Fixpoint hex_loop (fuel : nat) (v : Z) : list Z :=
  match fuel with
  | O => []
  | S fuel' => if v <? 16 then [hex_digit v] else hex_loop fuel' (v / 16) ++ [hex_digit (v mod 16)]
  end.
(** %X of snprintf for 32 bit values, dnscache.c 482-505 and 692-698. *)
Definition hex (v : Z) : list Z := hex_loop 8 v.

(** The key of a record, "%s %X %X" of name, type and class: dnscache.c 482-505 and 692-698. *)
Definition triplet (name : list Z) (ty kl : Z) : list Z := name ++ 32 :: hex ty ++ 32 :: hex kl.

(** What the parser gives for one record (GetName, Type, Klass, GetTTL, ToCacheData). dnscache.c 461-631. *)
Record crec := mk_rec { r_name : list Z; r_type : Z; r_class : Z; r_ttl : Z; r_data : list Z }.

(** CtrlContent, cachettlcrtl.h 15-20. *)
Record ctrl := mk_ctrl { ct_state : Z; ct_coef : Z; ct_inc : Z; ct_inf : Z }.

Section Cache.
(** What is in memory where the index arrays are: some function of them. *)
Context (raw : list Z -> list cnode -> nat -> Z).
(** IgnoreTTL and CacheParallel. *)
Context (ignore parallel : bool).

(** A byte of the area. MapStart + a, dnscache.c 410-431 and 677-803. *)
Definition rd (c : cache) (a : nat) : outcome Z :=
  if Nat.ltb a (bottom c) then match nth_error (c_mem c) a with Some b => Ret b | None => UBR end
  else if Nat.ltb a (c_size c) then Ret (raw (c_slots c) (c_nodes c) a) else UBR.

(** memcmp(Content, MapStart + off, Length) == 0, reading no further than the first difference. *)
Fixpoint mem_eq (c : cache) (content : list Z) (off : nat) : outcome bool :=
  match content with
  | [] => Ret true
  | x :: r => let! b := rd c off in if x =? b then mem_eq c r (S off) else Ret false
  end.

(** DNSCache_FindFromCache, 410-431; [start] is the number of Start. *)
Fixpoint find_from_loop (fuel : nat) (c : cache) (content : list Z) (start : option Z) (now : Z) : outcome (option Z) :=
  match fuel with
  | O => Fuel
  | S fuel' =>
    let! r := ht_get c (cstr content) start in
    match r with
    | None => Ret None
    | Some i =>
      let! n := derefn c i in
      if ignore || (now - n_time n <? n_ttl n) then
        let! e := mem_eq c content (n_off n + 1) in
        if e : bool then Ret (Some i) else find_from_loop fuel' c content (Some i) now
      else find_from_loop fuel' c content (Some i) now
    end
  end.
(** DNSCache_FindFromCache, dnscache.c 410-431. *)
Definition find_from (c : cache) (content : list Z) (start : option Z) (now : Z) : outcome (option Z) :=
  find_from_loop (S (length (c_nodes c))) c content start now.

(** DNSCache_CacheMinTTL, 433-456. *)
Fixpoint min_loop (fuel : nat) (c : cache) (content : list Z) (start : option Z) (now : Z) (ttl : Z) : outcome Z :=
  match fuel with
  | O => Fuel
  | S fuel' =>
    let! r := find_from c content start now in
    match r with
    | None => Ret ttl
    | Some i =>
      let! n := derefn c i in
      let t := u32 (n_ttl n - (now - n_time n)) in
      min_loop fuel' c content (Some i) now (if t <? ttl then t else ttl)
    end
  end.
(** The second loop of DNSCache_CacheMinTTL, which gives the nodes with the same content the same time to live, dnscache.c 448-453. *)
Fixpoint equal_loop (fuel : nat) (c : cache) (content : list Z) (start : option Z) (now : Z) (ttl : Z) : outcome cache :=
  match fuel with
  | O => Fuel
  | S fuel' =>
    let! r := find_from c content start now in
    match r with
    | None => Ret c
    | Some i =>
      let! n := derefn c i in
      equal_loop fuel' (setn c i (n_set_time (n_set_ttl n ttl) now)) content (Some i) now ttl
    end
  end.
(** DNSCache_CacheMinTTL, dnscache.c 433-456. *)
Definition min_ttl (c : cache) (content : list Z) (ttl now : Z) : outcome (Z * cache) :=
  let! t := min_loop (S (length (c_nodes c))) c content None now ttl in
  let! c' := equal_loop (S (length (c_nodes c))) c content None now t in
  Ret (t, c').

(** The choice of the rule and of the lifetime, 543-592.  [get] is CacheTtlCrtl_Get(TtlCtrl, _). *)
Definition choose_rule (get : list Z -> option ctrl) (infected : option ctrl) (item : list Z) : option ctrl :=
  match infected with
  | None => get item
  | Some i => if ct_inf i =? 1 then match get item with Some t => Some t | None => Some i end
              else if ct_inf i =? 2 then get item else Some i
  end.
(** The lifetime computed from a rule, in DNSCache_AddAItemToCache, dnscache.c 461-631. *)
Definition lifetime (rule : option ctrl) (ttl : Z) : Z :=
  match rule with
  | None => ttl
  | Some t => if ct_state t =? 0 then 0 else if ct_state t =? -1 then ttl else u32 (ct_coef t * ttl + ct_inc t)
  end.

(** The 512 bytes of Buffer, 466-522: the item from its second byte on; a negative number for a failed check. *)
Definition item_of (r : crec) : Z + list Z :=
  let t := triplet (r_name r) (r_type r) (r_class r) in
  if Nat.leb 512 (1 + length (r_name r)) then inl (-2)
  else if Nat.leb 512 (1 + length t) then inl (-3)
  else if Nat.leb 512 (1 + length t + 1) then inl (-4)
  else match r_data r with
       | [] => inl (-5)
       | d => if Nat.leb 512 (1 + length t + 1 + length d) then inl (-6) else inr (t ++ 0 :: d)
       end.

(** DNSCache_AddAItemToCache, 461-631. *)
Definition add_item (get : list Z -> option ctrl) (infected : option ctrl) (c : cache) (r : crec) (now : Z) : outcome (Z * cache) :=
  match item_of r with
  | inl e => Ret (e, c)
  | inr item =>
    let! f := find_from c item None now in
    match f with
    | Some _ => Ret (0, c)
    | None =>
      let ttl := lifetime (choose_rule get infected (cstr item)) (r_ttl r) in
      if ttl =? 0 then Ret (0, c)
      else
        let! x := get_chunk c (1 + length item) now in
        let '(o, c1) := x in
        match o with
        | None => Ret (-1, c1)
        | Some i =>
          let! n := derefn c1 i in
          let! c2 := mem_write c1 (n_off n) (255 :: item) in
          let c3 := setn c2 i (n_set_used n (Z.of_nat (1 + length item))) in
          let! y := (if parallel then min_ttl c3 (cstr item ++ [0]) ttl now else Ret (ttl, c3)) in
          let '(ttl', c4) := y in
          let! n4 := derefn c4 i in
          let! c5 := insert_to_slot (setn c4 i (n_set_time (n_set_ttl n4 ttl') now)) (cstr item) i in
          Ret (0, with_count c5 (c_count c5 + 1))
        end
    end
  end.

(** DNSCacheTTLCountdown_Task, 59-107: the loop from entry [k] - 1 down.  The task runs at one instant here: the real one
    takes the lock only when it finds the first expired entry. *)
Fixpoint sweep_loop (c : cache) (k : nat) (now : Z) (got : bool) : outcome (cache * bool) :=
  match k with
  | O => Ret (c, got)
  | S k' =>
    match nth_error (c_nodes c) k' with
    | None => Ret (c, got)
    | Some n =>
      if (0 <? n_ttl n) && (n_ttl n <=? now - n_time n) then
        let c1 := setn c (Z.of_nat k') (n_set_ttl n 0) in
        let! c2 := mem_write c1 (n_off n) [253] in
        let! c3 := remove_from_slot c2 (Z.of_nat k') in
        sweep_loop (with_count c3 (c_count c3 - 1)) k' now true
      else sweep_loop c k' now got
    end
  end.
(** DNSCacheTTLCountdown_Task, dnscache.c 59-107 (as one step, that is, with the lock held). *)
Definition cache_sweep (c : cache) (now : Z) : outcome cache :=
  let! r := sweep_loop c (length (c_nodes c)) now false in
  let '(c1, got) := r in
  if got : bool then
    match length (c_nodes c1) with
    | O => Ret (with_end c1 header_size)
    | S u => match nth_error (c_nodes c1) u with Some n => Ret (with_end c1 (n_off n + n_len n)) | None => UBR end
    end
  else Ret c1.

(** The bytes from MapStart + [off] on. dnscache.c 677-756. *)
Fixpoint rd_bytes (c : cache) (off len : nat) : outcome (list Z) :=
  match len with
  | O => Ret []
  | S len' => let! b := rd c off in let! r := rd_bytes c (S off) len' in Ret (b :: r)
  end.
(** strcpy from MapStart + [off]. dnscache.c 758-803. *)
Fixpoint rd_str (fuel : nat) (c : cache) (off : nat) : outcome (list Z) :=
  match fuel with
  | O => Fuel
  | S fuel' => let! b := rd c off in if b =? 0 then Ret [] else let! r := rd_str fuel' c (S off) in Ret (b :: r)
  end.

(** The TTL served, 728-734. *)
Definition served_ttl (n : cnode) (now : Z) : Z := if ignore then n_ttl n else u32 (n_ttl n - (now - n_time n)).

(** DNSCache_GetRawRecordsFromCache, 677-756: what it finds in order (data bytes and TTL), each given to Generate until one
    fails. *)
Definition key_fits (key : list Z) : bool := Nat.ltb (length key) 264.
(** The loop of DNSCache_GetRawRecordsFromCache, dnscache.c 677-756. *)
Fixpoint raw_loop (fuel : nat) (c : cache) (name : list Z) (ty kl : Z) (start : option Z) (now : Z) (ret : Z) (g : gen)
  : outcome (Z * gen) :=
  match fuel with
  | O => Fuel
  | S fuel' =>
    let key := triplet name ty kl in
    let! r := find_from c (key ++ [0]) start now in
    match r with
    | None => Ret (ret, g)
    | Some i =>
      let! n := derefn c i in
      if n_ttl n =? 0 then raw_loop fuel' c name ty kl (Some i) now ret g
      else
        let from := (n_off n + 1 + length key + 1)%nat in
        let! data := rd_bytes c from (Z.to_nat (Z.of_nat (n_off n) + n_used n - Z.of_nat from)) in
        let! x := gen_generate name ty kl data (served_ttl n now) g in
        let '(e, g') := x in
        if e =? 0 then raw_loop fuel' c name ty kl (Some i) now 0 g' else Ret (ret, g')
    end
  end.
(** DNSCache_GetRawRecordsFromCache, dnscache.c 677-756. *)
Definition get_raw (c : cache) (name : list Z) (ty kl now : Z) (g : gen) : outcome (Z * gen) :=
  if key_fits (triplet name ty kl) then raw_loop (S (length (c_nodes c))) c name ty kl None now (-100) g
  else Ret (-609, g).

(** DNSCache_GetCNameFromCache, 758-803: the node and the text copied to Buffer, which has 254 bytes.  The second
    search only decides on a message. *)
Definition get_cname_from (c : cache) (name : list Z) (now : Z) : outcome (option (cnode * list Z)) :=
  let key := triplet name 5 1 in
  if key_fits key then
    let! r := find_from c (key ++ [0]) None now in
    match r with
    | None => Ret None
    | Some i =>
      let! n := derefn c i in
      let! s := rd_str (S (c_size c)) c (n_off n + 1 + length key + 1) in
      if Nat.ltb 253 (length s) then UBW
      else let! _ := find_from c (key ++ [0]) (Some i) now in Ret (Some (n, s))
    end
  else Ret None.

(** DNSCache_GetByQuestion, 806-876, after the question has been read: the while loop 839-862 and the records. *)
Fixpoint alias_loop (fuel : nat) (c : cache) (name : list Z) (now : Z) (g : gen) : outcome (Z * list Z * gen) :=
  match fuel with
  | O => Fuel
  | S fuel' =>
    let! r := get_cname_from c name now in
    match r with
    | None => Ret (0, name, g)
    | Some (n, s) =>
      let! x := gen_cname [97] s (served_ttl n now) g in
      let '(e, g') := x in
      if e =? 0 then alias_loop fuel' c s now g' else Ret (-5, name, g')
    end
  end.
(** IsValidCachedType, dnscache.c 367-380. *)
Definition valid_type (ty : Z) : bool :=
  (ty =? 1) || (ty =? 28) || (ty =? 65) || (ty =? 16) || (ty =? 5) || (ty =? 12) || (ty =? 2) || (ty =? 15).
(** DNSCache_GetByQuestion, dnscache.c 806-876. *)
Definition by_question (fuel : nat) (c : cache) (name : list Z) (ty kl now : Z) (g : gen) : outcome (Z * gen) :=
  if negb (kl =? 1) || negb (valid_type ty) then Ret (-4, g)
  else
    let! x := (if ty =? 5 then Ret (0, name, g) else alias_loop fuel c name now g) in
    let '(e, name', g') := x in
    if negb (e =? 0) then Ret (e, g')
    else let! y := get_raw c name' ty kl now g' in
         let '(e2, g2) := y in Ret (if e2 =? 0 then 0 else -6, g2).
End Cache.
