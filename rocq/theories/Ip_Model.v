(** Model of the address rules (ipchunk.c) and of reply filtering (ipmisc.c). *)
From Verif Require Import Base Hash_Model Ttl_Model Addr_Model Bst_Model Parser_Model.

(** The Zone pointer of IpAddr: NULL, the two markers (ipchunk.c 5-7) or a zone text. *)
Inductive zone := Z0 | Z4 | Z6noz | Zone (s : list Z).
(** IpAddr, IpSet and IpElement, ipchunk.h 8-11, 18-21, 34-38.  Data is the bytes behind the pointer. *)
Record ipaddr := mk_ip { ip_bytes : list Z; ip_zone : zone }.
(** IpSet, ipchunk.h 18-21. *)
Record ipset := mk_set { set_ip : ipaddr; set_bits : Z }.
(** IpElement, ipchunk.h 34-38. *)
Record ipelem := mk_elem { el_set : ipset; el_type : Z; el_data : option (list Z) }.

(** IpAddr_BitLength 16-27, IpAddr_Is6 29-32, IpAddr_HasZone 34-37, IpAddr_IsValid 39-42. *)
Definition bit_length (a : ipaddr) : Z := match ip_zone a with Z0 => 0 | Z4 => 32 | _ => 128 end.
(** IpAddr_Is6, ipchunk.c 29-32. *)
Definition is6 (a : ipaddr) : bool := match ip_zone a with Z0 | Z4 => false | _ => true end.
(** IpAddr_HasZone, ipchunk.c 34-37. *)
Definition has_zone (a : ipaddr) : bool := is6 a && match ip_zone a with Z6noz => false | _ => true end.
(** IpAddr_IsValid, ipchunk.c 39-42. *)
Definition is_valid (a : ipaddr) : bool := match ip_zone a with Z0 => false | _ => true end.
(** IpAddr_SetPrefix4 44-48, IpAddr_From4 50-55, IpAddr_From6 57-61. *)
Definition prefix4 : list Z := repeat 0 10 ++ [255; 255].
(** IpAddr_From4, ipchunk.c 50-55. *)
Definition from4 (b : list Z) : ipaddr := mk_ip (prefix4 ++ b) Z4.
(** IpAddr_From6, ipchunk.c 57-61. *)
Definition from6 (b : list Z) : ipaddr := mk_ip b Z6noz.

Section Parse.
Context (stale : nat -> Z).
(** IpAddr_Parse 63-92: [None] if it fails (the address is not used then). *)
Fixpoint first_mark (s : list Z) : option (Z * list Z) :=
  match s with [] => None | c :: r => if (c =? 46) || (c =? 58) then Some (c, s) else first_mark r end.
(** IpAddr_Parse, ipchunk.c 63-92. *)
Definition ip_parse (s : list Z) : outcome (option ipaddr) :=
  match first_mark s with
  | None => Ret None
  | Some (c, r) =>
    if c =? 46 then
      let (n, b) := v4_to_num stale s in Ret (if n =? 4 then Some (mk_ip (prefix4 ++ b) Z4) else None)
    else
      let z := match str_chr 37 r with None => Z6noz | Some w => Zone (tl w) end in
      let! x := v6_to_num stale s in Ret (if fst x =? 16 then Some (mk_ip (snd x) z) else None)
  end.

(** atoi. ipchunk.c 99-142. *)
Definition atoi (s : list Z) : Z :=
  match scan_d s with None => 0 | Some (v, _) => (v + 2147483648) mod 4294967296 - 2147483648 end.
(** IpSet_Parse 119-132: only reached with at most 15 bits left, i.e. two rounds. *)
Definition mask_byte (bits b : Z) : Z := Z.land b (255 - Z.shiftr 255 (if 8 <=? bits then 8 else bits)).
(** The loop of IpSet_Parse that clears the bits after the prefix, ipchunk.c 99-142. *)
Fixpoint mask_loop (bits : Z) (a : list Z) : list Z :=
  match a with [] => [] | b :: a' => if 0 <? bits then mask_byte bits b :: mask_loop (bits - 8) a' else a end.
(** IpSet_Parse 99-142; [p] is the text behind the slash, empty if there is none. *)
Definition set_parse (s p : list Z) : outcome (option ipset) :=
  let! o := ip_parse s in
  match o with
  | None => Ret None
  | Some a =>
    let l := bit_length a in
    match p with
    | [] => Ret (Some (mk_set a l))
    | _ :: _ =>
      let n := atoi p in
      let n' := if n <? 0 then -1 else if l <? n then l else n in
      let l' := if is6 a then n' + 10 else n' in
      let z := if is6 a then Z6noz else ip_zone a in
      Ret (Some (mk_set (mk_ip (if l' <? 16 then mask_loop l' (ip_bytes a) else ip_bytes a) z) n'))
    end
  end.
End Parse.

(** memcmp and strcmp return a number of the right sign; the model takes -1, 0 or 1. *)
Fixpoint mem_cmp (a b : list Z) : Z :=
  match a, b with
  | x :: a', y :: b' => if x =? y then mem_cmp a' b' else if x <? y then -1 else 1
  | [], [] => 0 | [], _ => -1 | _, [] => 1
  end.
(** Contain, 145-219.  The loop 174-183 compares words of four bytes while at least 32 prefix bits of the element are left
    (at most four times); the result is the comparison or what is left. *)
Fixpoint cmp_words (fuel : nat) (bn be : list Z) (p : Z) : Z + (list Z * list Z * Z) :=
  match fuel with
  | O => inr (bn, be, p)
  | S fuel' =>
    if 32 <=? p then
      let r := mem_cmp (firstn 4 bn) (firstn 4 be) in
      if r =? 0 then cmp_words fuel' (skipn 4 bn) (skipn 4 be) (p - 32) else inl r
    else inr (bn, be, p)
  end.
(** htonl(~(~0U >> p)) and the bitwise and with four bytes, 186-188. *)
Definition mask32 (p : Z) : Z := 4294967295 - Z.shiftr 4294967295 p.
(** A 32 bit word of an address under the mask, in Contain, ipchunk.c 145-219. *)
Definition masked (p : Z) (b : list Z) : list Z := be32 (Z.land (from32 (firstn 4 b)) (mask32 p)).
(** Contain, ipchunk.c 145-219. *)
Definition contain (n e : ipelem) : Z :=
  let an := set_ip (el_set n) in
  let ae := set_ip (el_set e) in
  if negb (is_valid ae) then -1
  else if negb (bit_length an =? bit_length ae) then bit_length an - bit_length ae
  else
    let off := if bit_length ae =? 32 then 12%nat else 0%nat in
    match cmp_words 5 (skipn off (ip_bytes an)) (skipn off (ip_bytes ae)) (set_bits (el_set e)) with
    | inl r => r
    | inr (bn, be, p) =>
      let r := if 0 <? p then mem_cmp (masked p bn) (masked p be) else 0 in
      if r =? 0 then
        (* 191-195: the prefix length of the element was counted down *)
        if set_bits (el_set n) <? p then 1
        else if has_zone ae then
          if has_zone an then match ip_zone an, ip_zone ae with Zone x, Zone y => mem_cmp x y | _, _ => 0 end else 1
        else 0
      else r
    end.

(** IpChunk, ipchunk.h 40-45: the strings and data are kept in StableBuffers, which never move or change them (C36). *)
Record ipchunk := mk_ipchunk { ic_addr : bst ipelem; ic_cidr : bst ipelem }.
(** IpChunk_Init, ipchunk.c 230-261. *)
Definition ipchunk_init : ipchunk := mk_ipchunk bst_init bst_init.
(** IpSet_IsSingleIp, 94-97. *)
Definition is_single (s : ipset) : bool := negb (set_bits s =? 0) && (set_bits s =? bit_length (set_ip s)).
(** IpChunk_Add, 263-312: the text is cut at the first slash. *)
Fixpoint cut_slash (s : list Z) : list Z * list Z :=
  match s with [] => ([], []) | c :: r => if c =? 47 then ([], r) else let (a, b) := cut_slash r in (c :: a, b) end.
(** IpChunk_Add, ipchunk.c 263-312. *)
Definition ipchunk_add (stale : nat -> Z) (c : ipchunk) (s : list Z) (ty : Z) (data : option (list Z)) : outcome (Z * ipchunk) :=
  let (ip, p) := cut_slash s in
  let! o := set_parse stale ip p in
  match o with
  | None => Ret (-1, c)
  | Some st =>
    let e := mk_elem st ty data in
    if is_single st then let! r := bst_add contain (ic_addr c) e in Ret (0, mk_ipchunk (snd r) (ic_cidr c))
    else let! r := bst_add contain (ic_cidr c) e in Ret (0, mk_ipchunk (ic_addr c) (snd r))
  end.
(** IpChunk_Find, 314-363, for an address of 4 or 16 bytes: the type and data of the element found. *)
Definition ipchunk_find (c : ipchunk) (b : list Z) : outcome (option (Z * option (list Z))) :=
  let key := if Nat.eqb (length b) 4 then Some (mk_elem (mk_set (from4 b) 32) 0 None)
             else if Nat.eqb (length b) 16 then Some (mk_elem (mk_set (from6 b) 128) 0 None) else None in
  match key with
  | None => Ret None
  | Some k =>
    let! r1 := bst_search contain (ic_addr c) k None in
    match r1 with
    | Some a => let! n := deref (ic_addr c) a in Ret (Some (el_type (n_data n), el_data (n_data n)))
    | None =>
      let! r2 := bst_search contain (ic_cidr c) k None in
      match r2 with
      | Some a => let! n := deref (ic_cidr c) a in Ret (Some (el_type (n_data n), el_data (n_data n)))
      | None => Ret None
      end
    end
  end.

(** * ipmisc.c *)
(** MiscType and the results of Process, ipmisc.h 9-17. *)
Definition ty_block : Z := 1.
(** IP_MISC_TYPE_SUBSTITUTE, ipmisc.h 9-13. *)
Definition ty_subst : Z := 2.
(** IP_MISC_NOTHING, ipmisc.h 15. *)
Definition misc_nothing : Z := 0.
(** IP_MISC_FILTERED_IP, ipmisc.h 16. *)
Definition misc_filtered : Z := -1.
(** IP_MISC_NEGATIVE_RESULT, ipmisc.h 17. *)
Definition misc_negative : Z := -2.

(** IPMisc_AddBlockFromString, 10-18. *)
Definition add_block (stale : nat -> Z) (c : ipchunk) (ip : list Z) : outcome (Z * ipchunk) := ipchunk_add stale c ip ty_block None.
(** IPMisc_AddSubstituteFromString, 20-50; whether the substitute is well-formed is not checked. *)
Definition add_subst (stale : nat -> Z) (c : ipchunk) (ip sub : list Z) : outcome (Z * ipchunk) :=
  match str_chr 58 ip with
  | Some _ => let! x := v6_to_num stale sub in ipchunk_add stale c ip ty_subst (Some (snd x))
  | None => ipchunk_add stale c ip ty_subst (Some (snd (v4_to_num stale sub)))
  end.

(** The loop of IPMisc_Process, 77-127, on the memory [m] that holds the message. *)
Definition addr_len (ty : Z) : option nat := if ty =? 1 then Some 4%nat else if ty =? 28 then Some 16%nat else None.
(** The loop of IPMisc_Process, ipmisc.c 52-130. *)
Fixpoint misc_loop (fuel : nat) (c : ipchunk) (m : list Z) (dlen : Z) (i : iter) : outcome (Z * list Z) :=
  match fuel with
  | O => Fuel
  | S fuel' =>
    let! r := iter_next m dlen i in
    match r with
    | (None, _) => Ret (misc_nothing, m)
    | (Some pos, i') =>
      if negb (purpose_eqb (it_purpose i') P_answer) then Ret (misc_nothing, m)
      else if negb (it_klass i' =? 1) then misc_loop fuel' c m dlen i'
      else match addr_len (it_type i') with
           | None => misc_loop fuel' c m dlen i'
           | Some n =>
             let! dp := rec_dpos m pos in
             match slice m dp n with
             | None => UBR
             | Some b =>
               let! f := ipchunk_find c b in
               match f with
               | None => misc_loop fuel' c m dlen i'
               | Some (ty, data) =>
                 if ty =? ty_block then Ret (misc_filtered, m)
                 else if ty =? ty_subst then
                   match data with
                   | None => UBR
                   | Some d => match slice d 0 n with
                               | None => UBR
                               | Some d' => match write m dp d' with None => UBW | Some m' => misc_loop fuel' c m' dlen i' end
                               end
                   end
                 else misc_loop fuel' c m dlen i'
               end
             end
           end
    end
  end.
(** IPMisc_Process, 52-130: [len] is the length of the message; the response code is the low half of the fourth byte
    (dnsparser.h 109-117, dnsparser.c 232-235). *)
Definition misc_process (fuel : nat) (c : ipchunk) (block_negative : bool) (m : list Z) (len : nat) (p0 : purpose) (t0 k0 d0 : Z) : outcome (Z * list Z) :=
  match parser_init len false with
  | None => Ret (misc_nothing, m)
  | Some (_, dlen) =>
    let! neg := (if block_negative then match nth_error m 3 with None => UBR | Some b => Ret (negb (b mod 16 =? 0)) end else Ret false) in
    if neg : bool then Ret (misc_negative, m)
    else let! i := iter_init m p0 t0 k0 d0 in
         let! i' := goto_answers fuel m dlen i in
         misc_loop fuel c m dlen i'
  end.
