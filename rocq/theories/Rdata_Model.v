(** Model of the record data parsers (dnsparser.c 476-1261), of the listing of a response for the log (GetAllAnswers, dnsparser.c 104-159)
    and of the storing of a response's records (dnscache.c 461-522, 633-675). *)
From Coq Require Import String Ascii.
From Verif Require Import Base Name_Model Parser_Model Gen_Model Slist_Model Addr_Model Cht_Model Cache_Model.

(** The bytes of a string constant, dnsparser.c 104-1137. *)
Definition txt (s : string) : list Z := map (fun c => Z.of_N (N_of_ascii c)) (list_ascii_of_string s).

(** DNSTypeList, dnsrelated.c 5-47, without its entry for type 0 (the iterator gives no record of type 0). *)
Definition type_list : list (Z * list Z) :=
  [(1, txt "IPv4 Address"); (2, txt "Name Server"); (5, txt "Canonical Name"); (6, txt "Start of Authority"); (12, txt "Domain Pointer");
   (13, txt "Host Information"); (15, txt "MX"); (16, txt "TXT"); (17, txt "RP"); (18, txt "AFSDB"); (24, txt "SIG"); (25, txt "KEY");
   (28, txt "IPv6 Address"); (29, txt "LOC"); (33, txt "SRV"); (35, txt "NAPTR"); (36, txt "KX"); (37, txt "CERT"); (39, txt "DNAME");
   (41, txt "OPT"); (42, txt "APL"); (43, txt "DS"); (44, txt "SSHFP"); (45, txt "IPSECKEY"); (46, txt "RRSIG"); (47, txt "NSEC");
   (48, txt "DNSKEY"); (49, txt "DHCID"); (50, txt "NSEC3"); (51, txt "NSEC3PARAM"); (55, txt "HIP"); (64, txt "SVCB"); (65, txt "HTTPS");
   (99, txt "SPF"); (249, txt "TKEY"); (250, txt "TSIG"); (251, txt "IXFR"); (252, txt "AXFR"); (255, txt "*"); (32768, txt "TA"); (32769, txt "DLV")].
(** DNSGetTypeName, dnsrelated.c 76-89; None is DNS_TYPENAME_UNKNOWN. *)
Definition type_name (ty : Z) : option (list Z) := option_map snd (find (fun p => fst p =? ty) type_list).

(** The field parsers, dnsparser.c 492-827: Parse16Uint, Parse32Uint, ParseIPv4, ParseIPv6, UnpackLabeledName. *)
Inductive field := F16 | F32 | F4 | F6 | FName.
(** Bytes of a field of fixed length, dnsparser.c 492-751. *)
Definition fixed_size (f : field) : nat := match f with F16 => 2 | F32 => 4 | F4 => 4 | F6 => 16 | FName => 0 end.

Section Rdata.
(** A message of [len] bytes, the memory from its start on, the bound on the loop of DNSGetHostName, and what is in the array HostName
    (dnsparser.c 763) before its use. *)
Context (nf : nat) (m : list Z) (len : nat) (host : list Z).

(** What a field parser puts in the place of "%v", and by how much it decreases *DataLength; None: the name cannot be read.
    dnsparser.c 492-827. *)
Definition field_text (f : field) (pos : nat) : outcome (option (list Z * Z)) :=
  match f with
  | F16 => let! v := rd16 m pos in Ret (Some (print_u v, 2))
  | F32 => let! v := rd32 m pos in Ret (Some (print_u v, 4))
  | F4 => let! a := rdn m pos 4 in Ret (Some (v4_to_asc a, 4))
  | F6 => let! a := rdn m pos 16 in Ret (Some (v6_to_asc a, 0))
  | FName =>
    let! r := get_host_name nf len m pos host in
    match r with
    | (Some n, Some b) => Ret (Some (cstr b, Z.of_nat n))
    | _ => Ret None
    end
  end.

(** "*Buffer = '\0'; return -1;", dnsparser.c 534-812. *)
Definition give_up (b : list Z) : outcome (Z * list Z * Z) := let! b' := bwrite b 0 [0] in Ret (-1, b', 0).

(** The common part of the field parsers for a format, e.g. dnsparser.c 518-556: [b] is the memory from Buffer on, [size] is BufferLength.
    The result: the return value, the memory, and by how much *DataLength was decreased. *)
Definition put_text (fmt pre : list Z) (val : outcome (option (list Z * Z))) (b : list Z) (size : nat) : outcome (Z * list Z * Z) :=
  if Nat.ltb size (length fmt + 1) then Ret (-1, b, 0)
  else
    let! b1 := bwrite b 0 (fmt ++ [0]) in
    let! t := replace_checked (S (length b)) b1 [37; 116] pre (Z.of_nat size) in
    match t with
    | None => give_up b1
    | Some b2 =>
      let! v := val in
      match v with
      | None => give_up b2
      | Some (v, used) =>
        let! t := replace_checked (S (length b)) b2 [37; 118] v (Z.of_nat size) in
        match t with
        | None => give_up b2
        | Some b3 => match zlen b3 with None => UBR | Some n => Ret (Z.of_nat n, b3, used) end
        end
      end
    end.

(** A field parser, dnsparser.c 492-827; [fmt] = None is Format == NULL (to the cache). *)
Definition field_parse (fmt : option (list Z)) (pre : list Z) (f : field) (pos : nat) (b : list Z) (size : nat) : outcome (Z * list Z * Z) :=
  match fmt, f with
  | None, FName =>
    let! r := put_text [37; 118] pre (field_text FName pos) b size in
    let '(n, b', used) := r in Ret (if n <? 0 then n else n + 1, b', used)
  | None, _ =>
    if Nat.ltb size (fixed_size f) then Ret (-1, b, 0)
    else let! d := rdn m pos (fixed_size f) in let! b' := bwrite b 0 d in Ret (Z.of_nat (fixed_size f), b', Z.of_nat (fixed_size f))
  | Some fm, _ => put_text fm pre (field_text f pos) b size
  end.

(** DnsSimpleParserIterator_ParseData, dnsparser.c 897-936: from field [pp] on, with [left] of the [dl] bytes of data at [data] left, and [done] bytes
    in the buffer. *)
Fixpoint parse_data (fmt : option (list Z)) (pp : list (list Z * field)) (data : nat) (dl left : Z) (b : list Z) (size done : nat) : outcome (Z * list Z) :=
  match pp with
  | [] => Ret (Z.of_nat done, b)
  | (pre, f) :: pp' =>
    if left <=? 0 then Ret (Z.of_nat done, b)
    else
      let! r := field_parse fmt pre f (Z.to_nat (Z.of_nat data + dl - left)) (skipn done b) (size - done) in
      let '(n, b', used) := r in
      if n <=? 0 then Ret (n, firstn done b ++ b')
      else parse_data fmt pp' data dl (left - used) (firstn done b ++ b') size (done + Z.to_nat n)
  end.

(** The fields of SOA and MX, dnsparser.c 938-985. *)
Definition soa_fields : list (list Z * field) :=
  [(txt "(SOA)primary name server", FName); (txt "(SOA)responsible mail addr", FName); (txt "(SOA)serial", F32); (txt "(SOA)refresh", F32);
   (txt "(SOA)retry", F32); (txt "(SOA)expire", F32); (txt "(SOA)default TTL", F32)].
(** ParseMailEx, dnsparser.c 965-985. *)
Definition mx_fields : list (list Z * field) := [(txt "preference", F16); (txt "mail exchanger", FName)].

(** ParseA, ParseAAAA, ParseCName: dnsparser.c 838-890. *)
Definition parse_one (fmt : option (list Z)) (pre : list Z) (f : field) (data : nat) (b : list Z) (size : nat) : outcome (Z * list Z) :=
  let! r := field_parse fmt pre f data b size in let '(n, b', _) := r in Ret (n, b').
(** DNSGetTypeName as a string, dnsrelated.c 76-89. *)
Definition type_text (ty : Z) : list Z := match type_name ty with Some t => t | None => txt "UNKNOWN" end.

(** DNSRRGetString, dnsparser.c 987-1017: the loop from [pos] on, to [stop]; [left] is BufferLeft.  The bytes that are put in the buffer, None
    is -1.  The buffer has BufferLength bytes, so that the writes are inside (if it has one at all). *)
Fixpoint rr_string (fuel : nat) (pos stop left : nat) : outcome (option (list Z)) :=
  match fuel with
  | O => Fuel
  | S fuel' =>
    if Nat.ltb pos stop then
      let! c := rd8 m pos in
      let n := Z.to_nat c in
      if Nat.leb left n then Ret None
      else
        let! d := rdn m (S pos) n in
        let! r := rr_string fuel' (pos + (1 + n)) stop (left - n) in
        Ret (option_map (fun t => d ++ t) r)
    else Ret (Some [])
  end.

(** ParseTxt, dnsparser.c 1020-1081; the allocation succeeds. *)
Definition parse_txt (fmt : list Z) (data : nat) (dl : Z) (b : list Z) (size : nat) : outcome (Z * list Z) :=
  if Nat.ltb size (length fmt + 1) then Ret (0, b)
  else
    let! r := put_text fmt (txt "TXT") (let! s := rr_string (S (Z.to_nat dl)) data (data + Z.to_nat dl) (Z.to_nat dl) in
                                        Ret (option_map (fun t => (cstr (t ++ [0]), 0)) s)) b size in
    let '(n, b', _) := r in Ret (if n <? 0 then n else n + 1, b').

(** ParseRaw, dnsparser.c 1083-1139, for a format. *)
Definition parse_raw (fmt : list Z) (ty dl : Z) (b : list Z) (size : nat) : outcome (Z * list Z) :=
  let! b1 := bwrite b 0 (fmt ++ [0]) in
  let tn := match type_name ty with Some t => t | None => txt "UNKNOWN (" ++ print_u ty ++ txt ")" end in
  let! t := replace_checked (S (length b)) b1 [37; 116] tn (Z.of_nat size) in
  match t with
  | None => let! r := give_up b1 in let '(n, b', _) := r in Ret (n, b')
  | Some b2 =>
    let v := if ty =? 41 then txt "Pseudo-RR" else print_u dl ++ txt " bytes" in
    let! t := replace_checked (S (length b)) b2 [37; 118] v (Z.of_nat size) in
    match t with
    | None => let! r := give_up b2 in let '(n, b', _) := r in Ret (n, b')
    | Some b3 => match zlen b3 with None => UBR | Some n => Ret (Z.of_nat n, b3) end
    end
  end.

(** DnsSimpleParserIterator_TextifyData, dnsparser.c 1142-1198, for the record that the iterator [i] is at, at [pos]. *)
Definition textify (i : iter) (pos : nat) (fmt : list Z) (b : list Z) (size : nat) : outcome (Z * list Z) :=
  let! data := rec_dpos m pos in
  let ty := it_type i in
  if negb (ty =? 41) && negb (it_klass i =? 1) then Ret (0, b)
  else if ty =? 1 then parse_one (Some fmt) (txt "IPv4 Address") F4 data b size
  else if ty =? 28 then parse_one (Some fmt) (txt "IPv6 Address") F6 data b size
  else if (ty =? 5) || (ty =? 12) || (ty =? 2) then parse_one (Some fmt) (type_text ty) FName data b size
  else if ty =? 16 then parse_txt fmt data (it_dlen i) b size
  else if ty =? 15 then parse_data (Some fmt) mx_fields data (it_dlen i) (it_dlen i) b size 0
  else if ty =? 6 then parse_data (Some fmt) soa_fields data (it_dlen i) (it_dlen i) b size 0
  else parse_raw fmt ty (it_dlen i) b size.

(** DnsSimpleParserIterator_ToCacheData, dnsparser.c 1201-1261. *)
Definition to_cache_data (i : iter) (pos : nat) (b : list Z) (size : nat) : outcome (Z * list Z) :=
  let! data := rec_dpos m pos in
  let ty := it_type i in
  if negb (ty =? 41) && negb (it_klass i =? 1) then Ret (0, b)
  else if (ty =? 1) || (ty =? 28) || (ty =? 65) || (ty =? 16) then
    if Z.of_nat size <=? it_dlen i then Ret (0, b)
    else let! d := rdn m data (Z.to_nat (it_dlen i)) in let! b' := bwrite b 0 d in Ret (it_dlen i, b')
  else if (ty =? 5) || (ty =? 12) || (ty =? 2) then parse_one None (type_text ty) FName data b size
  else if ty =? 15 then parse_data None mx_fields data (it_dlen i) (it_dlen i) b size 0
  else if ty =? 6 then parse_data None soa_fields data (it_dlen i) (it_dlen i) b size 0
  else Ret (-1, b).

(** * The log *)
(** The format of a line, dnsparser.c 143. *)
Definition line_format : list Z := txt "   %t: %v" ++ [10].
(** The loop of GetAllAnswers, dnsparser.c 138-156: [k] bytes of text in the buffer [b], [left] is BufferLeft, [count] is ANACount. *)
Fixpoint answers_loop (fuel : nat) (i : iter) (b : list Z) (k left : nat) (count : Z) : outcome (list Z) :=
  match fuel with
  | O => Fuel
  | S fuel' =>
    let! r := iter_next m (Z.of_nat len) i in
    match r with
    | (None, _) => Ret b
    | (Some pos, i') =>
      match it_purpose i' with
      | P_question | P_unknown => Ret b
      | _ =>
        let! t := textify i' pos line_format (skipn k b) left in
        let '(n, b') := t in
        let b1 := firstn k b ++ b' in
        if n <=? 0 then bwrite b1 k (txt "   And " ++ print_u count ++ txt " More ..." ++ [10; 0])
        else match zlen b' with
             | None => UBR
             | Some s => answers_loop fuel' i' b1 (k + s) (left - s) (count - 1)
             end
      end
    end
  end.
(** GetAllAnswers, dnsparser.c 104-159, on a buffer of [length b] bytes (the result is the buffer; what it is when NULL is returned is unchanged). *)
Definition get_all_answers (fuel : nat) (b : list Z) : outcome (list Z) :=
  if Nat.leb (length b) 22 then Ret b
  else
    match parser_init len false with
    | None => Ret b
    | Some _ =>
      let! i := iter_init m P_unknown 0 0 0 in
      let! an := rd16 m 6 in
      let! ns := rd16 m 8 in
      let! ar := rd16 m 10 in
      let count := an + ns + ar in
      let! b0 := (if count =? 0 then bwrite b 0 (txt "   Nothing." ++ [10; 0]) else Ret b) in
      let! i' := goto_answers fuel m (Z.of_nat len) i in
      answers_loop fuel i' b0 0 (length b - 22) count
    end.

(** * The cache *)
(** The record that DNSCache_AddAItemToCache has in its Buffer (512 bytes, [buf] before), dnscache.c 461-522, with the TTL it reads afterwards; None: the name
    cannot be read (-1).  No data stands for the results -2 to -5. *)
Definition record_of (i : iter) (pos : nat) (buf : list Z) : outcome (option crec) :=
  let! r := get_host_name nf len m pos (skipn 1 buf) in
  match r with
  | (Some _, Some b) =>
    let name := cstr b in
    let k := (1 + length (triplet name (it_type i) (it_klass i)) + 1)%nat in
    let! d := (if Nat.leb 512 k then Ret (0, [])
               else to_cache_data i pos (skipn (k - 1) b) (512 - k)) in
    let! ttl := rec_ttl m pos in
    Ret (Some (mk_rec name (it_type i) (it_klass i) ttl (firstn (Z.to_nat (fst d)) (snd d))))
  | _ => Ret None
  end.
End Rdata.

Section Store.
(** The cache's memory, its options and the TTL rules as in Cache_Model; what is in the arrays HostName and Buffer; the clock, read for each
    record (record numbers count from 1). *)
Context (raw : list Z -> list cnode -> nat -> Z) (ignore parallel : bool) (get : list Z -> option ctrl).
Context (nf : nat) (host buf : list Z) (clk : Z -> Z).

(** The loop of DNSCache_AddItemsToCache, dnscache.c 659-670. *)
Fixpoint add_loop (fuel : nat) (m : list Z) (len : nat) (infected : option ctrl) (i : iter) (c : cache) : outcome cache :=
  match fuel with
  | O => Fuel
  | S fuel' =>
    let! r := iter_next m (Z.of_nat len) i in
    match r with
    | (None, _) => Ret c
    | (Some pos, i') =>
      if negb (purpose_eqb (it_purpose i') P_unknown) && negb (purpose_eqb (it_purpose i') P_question) && valid_type (it_type i') && (it_klass i' =? 1)
      then let! r := record_of nf m len host i' pos buf in
           match r with
           | None => add_loop fuel' m len infected i' c
           | Some rec => let! x := add_item raw ignore parallel get infected c rec (clk (it_rec i')) in add_loop fuel' m len infected i' (snd x)
           end
      else add_loop fuel' m len infected i' c
    end
  end.

(** DNSCache_AddItemsToCache, dnscache.c 633-675, of an initialised cache; [domain] is Header->Domain.  The lock is not modelled: this is one step. *)
Definition add_items (fuel : nat) (first : bool) (m : list Z) (len : nat) (domain : list Z) (c : cache) : outcome (Z * cache) :=
  if negb first && negb parallel then Ret (0, c)
  else
    match parser_init len false with
    | None => Ret (-1, c)
    | Some _ =>
      let! i := iter_init m P_unknown 0 0 0 in
      let! c' := add_loop fuel m len (get domain) i c in
      Ret (0, c')
    end.
End Store.
