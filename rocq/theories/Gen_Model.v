(** Model of the message generator (dnsgenerator.c 34-965). *)
From Verif Require Import Base Name_Model Parser_Model.

(** struct _DnsGenerator, dnsgenerator.h 42-52: the buffer (its length is BufferLength), the offset of
    Itr and the offset of NumberOfRecords in it. *)
Record gen := mk_gen { g_buf : list Z; g_itr : nat; g_num : nat }.

(** DnsGenerator_CurrentPurpose, dnsgenerator.c 104-128. *)
Definition cur_purpose (g : gen) : purpose :=
  match g_num g with
  | 4%nat => P_question | 6%nat => P_answer | 8%nat => P_nameserver | 10%nat => P_additional
  | _ => P_unknown
  end.

(** DnsGenerator_NextPurpose, dnsgenerator.c 130-140. *)
Definition next_purpose (g : gen) : gen :=
  match cur_purpose g with
  | P_unknown => g
  | _ => mk_gen (g_buf g) (g_itr g) (g_num g + 2)
  end.

(** LEFT_LENGTH, dnsgenerator.c 142. *)
Definition left_length (g : gen) : Z := Z.of_nat (length (g_buf g)) - Z.of_nat (g_itr g).

(** LABEL_LENGTH, dnsgenerator.c 144. *)
Definition label_length (name : list Z) : Z :=
  match name with [] => 1 | _ => Z.of_nat (length name) + 2 end.

(** Unchecked store of [l] at Itr, which is then advanced. dnsgenerator.c 146-236. *)
Definition put (g : gen) (l : list Z) : outcome gen :=
  let! b := bwrite (g_buf g) (g_itr g) l in Ret (mk_gen b (g_itr g + length l) (g_num g)).

(** One part of a record: 0 is success. *)
Definition part : Type := gen -> outcome (Z * gen).

(** DnsGenerator_NamePart, dnsgenerator.c 146-179; a NULL name is [].  strcpy followed by the in place
    DNSLabelizedName is one store of the resulting bytes (they cover what strcpy wrote). *)
Definition name_part (name : list Z) : part := fun g =>
  match name with
  | [] => if left_length g <? 1 then Ret (-1, g) else let! g' := put g [0] in Ret (0, g')
  | _ => if left_length g <? label_length name then Ret (-2, g)
         else match labelize name (length name + 2) with
              | None => Ret (-3, g)
              | Some w => let! g' := put g w in Ret (0, g')
              end
  end.

(** A checked store: dnsgenerator.c 181-236 (16Uint, 32Uint, IPv4, IPv6).  The text to number conversions
    of the last two are modelled separately; here the address bytes are given. *)
Definition bytes_part (l : list Z) : part := fun g =>
  if left_length g <? Z.of_nat (length l) then Ret (-1, g) else let! g' := put g l in Ret (0, g').
(** DnsGenerator_16Uint, dnsgenerator.c 181-193. *)
Definition u16_part (v : Z) : part := bytes_part (be16 v).
(** DnsGenerator_32Uint, dnsgenerator.c 195-207. *)
Definition u32_part (v : Z) : part := bytes_part (be32 v).

(** memcpy without a check, dnsgenerator.c 579-580. *)
Definition raw_part (l : list Z) : part := fun g => let! g' := put g l in Ret (0, g').

(** The increment of the count at NumberOfRecords, e.g. dnsgenerator.c 264-266. *)
Definition incr_count (g : gen) : outcome gen :=
  let! v := rd16 (g_buf g) (g_num g) in
  let! b := bwrite (g_buf g) (g_num g) (be16 (v + 1)) in
  Ret (mk_gen b (g_itr g) (g_num g)).

(** "if( part != 0 ) return code;" one after the other, then the count and 0. *)
Fixpoint run_parts (ps : list (Z * part)) (g : gen) : outcome (Z * gen) :=
  match ps with
  | [] => let! g' := incr_count g in Ret (0, g')
  | (code, p) :: ps' =>
    let! r := p g in
    if fst r =? 0 then run_parts ps' (snd r) else Ret (code, snd r)
  end.

(** DnsGenerator_Question, dnsgenerator.c 238-269. *)
Definition gen_question (name : list Z) (ty kl : Z) (g : gen) : outcome (Z * gen) :=
  if purpose_eqb (cur_purpose g) P_question
  then run_parts [(-1, name_part name); (-2, u16_part ty); (-3, u16_part kl)] g
  else Ret (1, g).

(** The check at the start of the resource record calls, e.g. dnsgenerator.c 277-285. *)
Definition rr_allowed (g : gen) : bool :=
  purpose_eqb (cur_purpose g) P_answer || purpose_eqb (cur_purpose g) P_nameserver ||
  purpose_eqb (cur_purpose g) P_additional.

(** DnsGenerator_CName, dnsgenerator.c 271-322. *)
Definition gen_cname (name cname : list Z) (ttl : Z) (g : gen) : outcome (Z * gen) :=
  if rr_allowed g
  then run_parts [(-1, name_part name); (-2, u16_part 5); (-3, u16_part 1); (-4, u32_part ttl);
                  (-5, u16_part (label_length cname)); (-6, name_part cname)] g
  else Ret (1, g).

(** DnsGenerator_MX, dnsgenerator.c 324-381. *)
Definition gen_mx (name : list Z) (pref : Z) (server : list Z) (ttl : Z) (g : gen) : outcome (Z * gen) :=
  if rr_allowed g
  then run_parts [(-1, name_part name); (-2, u16_part 15); (-3, u16_part 1); (-4, u32_part ttl);
                  (-5, u16_part (label_length server + 2)); (-6, u16_part pref); (-7, name_part server)] g
  else Ret (1, g).

(** DnsGenerator_A, dnsgenerator.c 383-434, [ip] is the converted address (4 bytes). *)
Definition gen_a (name ip : list Z) (ttl : Z) (g : gen) : outcome (Z * gen) :=
  if rr_allowed g
  then run_parts [(-1, name_part name); (-2, u16_part 1); (-3, u16_part 1); (-4, u32_part ttl);
                  (-5, u16_part 4); (-6, bytes_part ip)] g
  else Ret (1, g).

(** DnsGenerator_AAAA, dnsgenerator.c 436-487, [ip] is the converted address (16 bytes). *)
Definition gen_aaaa (name ip : list Z) (ttl : Z) (g : gen) : outcome (Z * gen) :=
  if rr_allowed g
  then run_parts [(-1, name_part name); (-2, u16_part 28); (-3, u16_part 1); (-4, u32_part ttl);
                  (-5, u16_part 16); (-6, bytes_part ip)] g
  else Ret (1, g).

(** DnsGenerator_EDns, dnsgenerator.c 489-528. *)
Definition gen_edns (size : Z) (g : gen) : outcome (Z * gen) :=
  if purpose_eqb (cur_purpose g) P_additional
  then run_parts [(-1, name_part []); (-2, u16_part 41); (-3, u16_part size); (-4, u32_part 0);
                  (-5, u16_part 0)] g
  else Ret (1, g).

(** DnsGenerator_RawData, dnsgenerator.c 530-587; DataLength is the length of [data]. *)
Definition gen_raw (name : list Z) (ty kl : Z) (data : list Z) (ttl : Z) (g : gen) : outcome (Z * gen) :=
  if rr_allowed g
  then match data with
       | [] => Ret (2, g)
       | _ => run_parts [(-1, name_part name); (-2, u16_part ty); (-3, u16_part kl); (-4, u32_part ttl);
                         (-5, u16_part (Z.of_nat (length data))); (0, raw_part data)] g
       end
  else Ret (1, g).

(** The C string at the start of a block. dnsgenerator.c 602-617. *)
Fixpoint cstr (l : list Z) : list Z :=
  match l with [] => [] | c :: l' => if c =? 0 then [] else c :: cstr l' end.

(** The C string at the start of a block, read up to its terminator; UBR if the block has none. dnsgenerator.c 834-869. *)
Definition str_in (l : list Z) : outcome (list Z) := if existsb (Z.eqb 0) l then Ret (cstr l) else UBR.

(** DnsGenerator_Generate, dnsgenerator.c 834-869.  [data] is the block Data points to (for the name types
    a NUL-terminated text, for MX two bytes and a text; reading beyond the block is UBR). *)
Definition gen_generate (name : list Z) (ty kl : Z) (data : list Z) (ttl : Z) (g : gen) : outcome (Z * gen) :=
  if (ty =? 1) || (ty =? 28) || (ty =? 65) || (ty =? 16) then gen_raw name ty kl data ttl g
  else if (ty =? 5) || (ty =? 12) || (ty =? 2) then let! s := str_in data in gen_cname name s ttl g
  else if ty =? 15 then
    let! pref := rd16 data 0 in let! s := str_in (skipn 2 data) in gen_mx name pref s ttl g
  else Ret (-256, g).

(** DnsGenerator_CopyCName, CopyA, CopyAAAA and CopyNamePart, dnsgenerator.c 602-796.  [m] is the source
    message, [pos] the position of the record there, [ty], [kl] what the iterator reports for
    it; [fuel] bounds the loop of DNSCopyLable. *)
Definition copy_part (fuel : nat) (m : list Z) (pos : nat) : part := fun g =>
  let! l := copy_label fuel m pos in
  if left_length g <? Z.of_nat (length l) then Ret (-1, g) else let! g' := put g l in Ret (0, g').
(** DnsGenerator_CopyCName, dnsgenerator.c 619-680. *)
Definition gen_copy_cname (fuel : nat) (m : list Z) (pos : nat) (ty kl : Z) (g : gen) : outcome (Z * gen) :=
  if rr_allowed g then
    if negb (ty =? 5) || negb (kl =? 1) then Ret (2, g)
    else let! ttl := rec_ttl m pos in
         let! dp := rec_dpos m pos in
         let! cl := copy_label fuel m dp in
         run_parts [(-1, copy_part fuel m pos); (-2, u16_part ty); (-3, u16_part kl); (-4, u32_part ttl);
                    (-5, u16_part (Z.of_nat (length cl))); (-6, copy_part fuel m dp)] g
  else Ret (1, g).
(** The common text of DnsGenerator_CopyA and DnsGenerator_CopyAAAA, dnsgenerator.c 682-796. *)
Definition gen_copy_addr (fuel : nat) (m : list Z) (pos : nat) (ty kl want : Z) (n : nat) (g : gen)
  : outcome (Z * gen) :=
  if rr_allowed g then
    if negb (ty =? want) || negb (kl =? 1) then Ret (2, g)
    else let! ttl := rec_ttl m pos in
         let! dp := rec_dpos m pos in
         let! a := rdn m dp n in
         run_parts [(-1, copy_part fuel m pos); (-2, u16_part ty); (-3, u16_part kl); (-4, u32_part ttl);
                    (-5, u16_part (Z.of_nat n)); (-6, bytes_part a)] g
  else Ret (1, g).
(** DnsGenerator_CopyA, dnsgenerator.c 682-738. *)
Definition gen_copy_a (fuel : nat) (m : list Z) (pos : nat) (ty kl : Z) := gen_copy_addr fuel m pos ty kl 1 4.
(** DnsGenerator_CopyAAAA, dnsgenerator.c 740-796. *)
Definition gen_copy_aaaa (fuel : nat) (m : list Z) (pos : nat) (ty kl : Z) := gen_copy_addr fuel m pos ty kl 28 16.

(** StripedLength, dnsgenerator.c 803-832: the loop stops at the first record that is neither question
    nor answer. *)
Fixpoint strip_loop (fuel : nat) (m : list Z) (len : Z) (i : iter) : outcome Z :=
  match fuel with
  | O => Fuel
  | S fuel' =>
    let! r := iter_next m len i in
    match r with
    | (None, _) => Ret len
    | (Some pos, i') =>
      if purpose_eqb (it_purpose i') P_question || purpose_eqb (it_purpose i') P_answer
      then strip_loop fuel' m len i' else Ret (Z.of_nat pos)
    end
  end.
(** StripedLength, dnsgenerator.c 803-832. *)
Definition striped_length (fuel : nat) (m : list Z) (len : nat) : outcome Z :=
  match parser_init len false with
  | None => Ret (-1)
  | Some _ => let! i := iter_init m P_unknown 0 0 0 in strip_loop fuel m (Z.of_nat len) i
  end.

(** DnsGenerator_Init without a source message, dnsgenerator.c 884-887, 931-939: only the four counts of
    the header are set. *)
Definition zero_counts (b : list Z) : outcome (list Z) := bwrite b 4 [0;0;0;0;0;0;0;0].
(** DnsGenerator_Init for an empty buffer, dnsgenerator.c 871-965. *)
Definition gen_init (b : list Z) : outcome gen :=
  let! b' := zero_counts b in Ret (mk_gen b' 12 4).

(** DnsGenerator_Init with a source message [src] of [len] bytes, dnsgenerator.c 889-930; [None] is -2. *)
Definition gen_init_copy (fuel : nat) (b src : list Z) (len : nat) (strip : bool) : outcome (option gen) :=
  let! qd := rd16 src 4 in
  let! an := rd16 src 6 in
  let! ns := rd16 src 8 in
  let! ar := rd16 src 10 in
  let ns := if strip then 0 else ns in
  let ar := if strip then 0 else ar in
  let! sl := (if strip then striped_length fuel src len else Ret (Z.of_nat len)) in
  if sl <? 0 then Ret None
  else
    let n := Z.to_nat sl in
    let! bytes := rdn src 0 n in
    let! b1 := bwrite b 0 bytes in
    let num := if 0 <? ar then 10%nat else if 0 <? ns then 8%nat else if 0 <? an then 6%nat else 4%nat in
    let! b2 := (if strip then bwrite b1 8 [0;0;0;0] else Ret b1) in
    Ret (Some (mk_gen b2 n num)).

(** DnsGenerator_CopyHeader, SetIdentifier: dnsgenerator.c 589-600. *)
Definition copy_header (src : list Z) (counts : bool) (g : gen) : outcome gen :=
  let! h := rdn src 0 (if counts then 12 else 4) in
  let! b := bwrite (g_buf g) 0 h in Ret (mk_gen b (g_itr g) (g_num g)).
(** DnsGenerator_SetIdentifier, dnsgenerator.c 597-600. *)
Definition set_identifier (v : Z) (g : gen) : outcome gen :=
  let! b := bwrite (g_buf g) 0 (be16 v) in Ret (mk_gen b (g_itr g) (g_num g)).

(** The calls of a user of the generator. dnsgenerator.h 42-129. *)
Inductive gop :=
| OQuestion (name : list Z) (ty kl : Z)
| OCName (name cname : list Z) (ttl : Z)
| OMX (name : list Z) (pref : Z) (server : list Z) (ttl : Z)
| OA (name ip : list Z) (ttl : Z)
| OAAAA (name ip : list Z) (ttl : Z)
| OEDns (size : Z)
| ORaw (name : list Z) (ty kl : Z) (data : list Z) (ttl : Z)
| ONext.
(** One call, dnsgenerator.c 130-587. *)
Definition gen_step (o : gop) (g : gen) : outcome (Z * gen) :=
  match o with
  | OQuestion name ty kl => gen_question name ty kl g
  | OCName name cname ttl => gen_cname name cname ttl g
  | OMX name pref server ttl => gen_mx name pref server ttl g
  | OA name ip ttl => gen_a name ip ttl g
  | OAAAA name ip ttl => gen_aaaa name ip ttl g
  | OEDns size => gen_edns size g
  | ORaw name ty kl data ttl => gen_raw name ty kl data ttl g
  | ONext => Ret (0, next_purpose g)
  end.
(** A history of calls with the codes they returned. dnsgenerator.c 130-587. *)
Fixpoint gen_run (os : list gop) (g : gen) : outcome (list Z * gen) :=
  match os with
  | [] => Ret ([], g)
  | o :: os' =>
    let! r := gen_step o g in
    let! rs := gen_run os' (snd r) in
    Ret (fst r :: fst rs, snd rs)
  end.

(** DNSGetHostName(RawDns, RawDnsLength, cur, NULL, 0), the GetName(&i, NULL, 0) of dnsgenerator.c 71. *)
Definition name_extent_in (m : list Z) (dlen : nat) (pos : nat) : outcome Z :=
  let! r := name_loop (S (length m)) true dlen m pos None 0 0 false in
  Ret (match fst r with Some n => Z.of_nat n | None => -1 end).

(** DNSLabelMakePointer, dnsgenerator.h 30: stores to unsigned char. *)
Definition make_pointer (loc : nat) : list Z :=
  [(192 + Z.of_nat loc / 256) mod 256; Z.of_nat loc mod 256].

(** The loop of DNSCompress, dnsgenerator.c 59-92.  [m] is the memory, [dlen] RawDnsLength, [last] the
    position of LastName; the result is the return value and the memory.  A negative memmove
    length is undefined behaviour. *)
Fixpoint compress_loop (fuel : nat) (m : list Z) (dlen : nat) (i : iter) (last : nat) : outcome (Z * list Z) :=
  match fuel with
  | O => Fuel
  | S fuel' =>
    let! r := iter_next m (Z.of_nat dlen) i in
    match r with
    | (None, _) => Ret (Z.of_nat dlen, m)
    | (Some cur, i') =>
      if negb (purpose_eqb (it_purpose i') P_answer) then Ret (Z.of_nat dlen, m)
      else if negb (it_klass i' =? 1) then compress_loop fuel' m dlen i' last
      else
        let! n := name_extent_in m dlen cur in
        if n - 2 <? 0 then Ret (-4, m)
        else
          let diff := Z.to_nat (n - 2) in
          if Nat.ltb dlen (cur + diff) then UBW
          else
            let! moved := rdn m (cur + diff) (dlen - (cur + diff)) in
            let! m1 := bwrite m cur moved in
            let! m2 := bwrite m1 cur (make_pointer last) in
            let! last' := (if it_type i' =? 5 then rec_dpos m2 cur else Ret last) in
            compress_loop fuel' m2 (dlen - diff) i' last'
    end
  end.

(** DNSCompress, dnsgenerator.c 34-98. *)
Definition dns_compress (fuel : nat) (m : list Z) (dlen : nat) : outcome (Z * list Z) :=
  match parser_init dlen false with
  | None => Ret (-1, m)
  | Some _ =>
    let! i := iter_init m P_unknown 0 0 0 in
    let! r := iter_next m (Z.of_nat dlen) i in
    match r with
    | (Some last, i1) =>
      if purpose_eqb (it_purpose i1) P_question
      then let! i2 := goto_answers fuel m (Z.of_nat dlen) i1 in
           compress_loop fuel m dlen i2 last
      else Ret (-3, m)
    | (None, _) => Ret (-3, m)
    end
  end.

(** "while( g.NextPurpose(&g) != DNS_RECORD_PURPOSE_ADDITIONAL );" (iheader.c 134, hostsutils.c 420). *)
Fixpoint to_additional (fuel : nat) (g : gen) : outcome gen :=
  match fuel with
  | O => Fuel
  | S fuel' => let g' := next_purpose g in
               if purpose_eqb (cur_purpose g') P_additional then Ret g' else to_additional fuel' g'
  end.

(** MsgContext_AddFakeEdns, iheader.c 113-143, on the entity [mem] (its length is BufferLength - sizeof(IHeader))
    with EntityLength [len], when -ap is set and the query has no EDNS; the result is the new EntityLength
    and the entity.  The result of EDns is ignored by the code. *)
Definition fake_edns (fuel : nat) (mem : list Z) (len : nat) : outcome (option (nat * list Z)) :=
  let! r := gen_init_copy fuel mem mem len false in
  match r with
  | None => Ret None
  | Some g =>
    let! g1 := to_additional fuel g in
    let! e := gen_edns 1280 g1 in
    Ret (Some (g_itr (snd e), g_buf (snd e)))
  end.
