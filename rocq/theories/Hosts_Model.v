(** Model of the hosts tables: hostscontainer.c, hostsutils.c 16-42 and the choices of 122-192, hosts.c 18-84. *)
From Verif Require Import Base Hash_Model Sht_Model Chunk_Model.

(** HostsRecordType, hostscontainer.h 9-18 (HOSTS_TYPE_TOO_LONG is never used). *)
Inductive htype := HT_unknown | HT_a | HT_aaaa | HT_cname | HT_exclude | HT_good.
(** Comparison of types, hostscontainer.c 90-170. *)
Definition ht_eqb (a b : htype) : bool :=
  match a, b with
  | HT_unknown, HT_unknown | HT_a, HT_a | HT_aaaa, HT_aaaa | HT_cname, HT_cname | HT_exclude, HT_exclude | HT_good, HT_good => true
  | _, _ => false
  end.

(** The character classes of ctype.h in the C locale. hostscontainer.c 15-79. *)
Definition is_digit (c : Z) : bool := (48 <=? c) && (c <=? 57).
(** isalpha(3), as used in hostscontainer.c 15-79. *)
Definition is_alpha (c : Z) : bool := ((65 <=? c) && (c <=? 90)) || ((97 <=? c) && (c <=? 122)).
(** isalnum(3), as used in hostscontainer.c 15-79. *)
Definition is_alnum (c : Z) : bool := is_digit c || is_alpha c.
(** isxdigit(3), as used in hostscontainer.c 15-79. *)
Definition is_xdigit (c : Z) : bool := is_digit c || ((65 <=? c) && (c <=? 70)) || ((97 <=? c) && (c <=? 102)).
(** isspace(3), as in sscanf's %s, hostscontainer.c 336-387. *)
Definition is_space (c : Z) : bool := ((9 <=? c) && (c <=? 13)) || (c =? 32).

(** HostsContainer_DetermineType, hostscontainer.c 15-79, of a string (not NULL). *)
Definition determine_type (s : list Z) : htype :=
  if match s with 60 :: _ => last s 0 =? 62 | _ => false end then HT_good
  else if match s with 64 :: 64 :: _ => true | _ => false end then HT_exclude
  else match s with
       | [] => HT_cname
       | c :: _ =>
         if is_xdigit c then
           if existsb (fun c => c =? 58) s then HT_aaaa
           else if existsb (fun c => is_alpha c || (c =? 45)) s then HT_cname
           else if existsb (fun c => is_digit c || (c =? 46)) s then HT_a
           else HT_unknown
         else if c =? 58 then HT_aaaa
         else if existsb (fun c => negb (is_alnum c) && negb (c =? 45) && negb (c =? 46)) s then HT_unknown
         else HT_cname
       end.

(** A parsed address, struct _IpAddr, ipchunk.h 8-11: 16 bytes and the zone pointer. *)
Record ipaddr := mk_ip { ip_bytes : list Z; ip_zone : Z }.
(** Equality of addresses: Addr and Zone, hostscontainer.c 172-274. *)
Definition ip_eqb (a b : ipaddr) : bool := str_eqb (ip_bytes a) (ip_bytes b) && (ip_zone a =? ip_zone b).

Section Hosts.
(** [fn] is fnmatch.  [parse] is IpAddr_Parse (ipchunk.c 63-92), whose result code AddIP ignores: any function here, the
    conversions of texts are modelled in Ip_Model.  [good] is GoodIpList_Get (goodiplist.c 279-): the current address of a list. *)
Context (fn : list Z -> list Z -> bool) (parse : list Z -> ipaddr) (good : list Z -> option (list Z)).

(** The Data of a node: a pointer into the table of addresses, a string, NULL. hostscontainer.c 172-274. *)
Inductive hdata := HD_addr (i : nat) | HD_text (s : list Z) | HD_null.

(** struct _TableNode, hostscontainer.c 9-13; a pointer to a node is its number. *)
Record hnode := mk_hn { hn_next : option nat; hn_type : htype; hn_data : hdata }.

(** struct _HostsContainer, hostscontainer.h 29-33. *)
Record hosts := mk_hosts { h_map : chunk nat; h_nodes : list hnode; h_ips : list ipaddr }.

(** HostsContainer_Init, hostscontainer.c 417-442. *)
Definition hosts_init : hosts := mk_hosts chunk_init [] [].

(** The callback of a lookup that accepts every data, hostscontainer.c 90-145. *)
Definition any_data : option nat -> bool := fun _ => true.

(** HostsContainer_FindExist, 147-170. *)
Definition find_exist (h : hosts) (name : list Z) : outcome (option nat) :=
  let! m := chunk_match_exactly (h_map h) name None any_data in
  Ret (match m with Some (Some i) => Some i | _ => None end).

(** HostsContainer_AddNode 187-216: an address that is there already is shared. *)
Fixpoint ip_index (l : list ipaddr) (a : ipaddr) : option nat :=
  match l with
  | [] => None
  | b :: l' => if ip_eqb b a then Some O else option_map S (ip_index l' a)
  end.

(** Data as the callers give it. hostscontainer.c 276-334. *)
Inductive harg := HA_addr (a : ipaddr) | HA_text (s : list Z) | HA_null.

(** HostsContainer_AddNode, 172-274; allocation succeeds. *)
Definition add_node (h : hosts) (name : list Z) (ty : htype) (arg : harg) : outcome hosts :=
  let '(d, ips) :=
    match arg with
    | HA_addr a => match ip_index (h_ips h) a with
                   | Some i => (HD_addr i, h_ips h)
                   | None => (HD_addr (length (h_ips h)), h_ips h ++ [a])
                   end
    | HA_text s => (HD_text s, h_ips h)
    | HA_null => (HD_null, h_ips h)
    end in
  let! e := find_exist h name in
  let s := length (h_nodes h) in
  match e with
  | None => Ret (mk_hosts (chunk_add (h_map h) name (Some s)) (h_nodes h ++ [mk_hn None ty d]) ips)
  | Some x =>
    match nth_error (h_nodes h) x with
    | None => UBR
    | Some n => Ret (mk_hosts (h_map h) (lset (h_nodes h) x (mk_hn (Some s) (hn_type n) (hn_data n)) ++ [mk_hn (hn_next n) ty d]) ips)
    end
  end.

(** sscanf's %s of at most [w] characters: skips white space, the text and the rest of the line; fails at the end. hostscontainer.c 336-387. *)
Fixpoint skip_space (l : list Z) : list Z :=
  match l with c :: l' => if is_space c then skip_space l' else l | [] => [] end.
(** %s of sscanf with a width: the word and the rest, hostscontainer.c 336-387. *)
Fixpoint take_token (w : nat) (l : list Z) : list Z * list Z :=
  match w, l with
  | S w', c :: l' => if is_space c then ([], l) else let (a, b) := take_token w' l' in (c :: a, b)
  | _, _ => ([], l)
  end.
(** %s of sscanf with a width after blanks, hostscontainer.c 336-387. *)
Definition scan_token (w : nat) (l : list Z) : option (list Z * list Z) :=
  match take_token w (skip_space l) with ([], _) => None | r => Some r end.

(** sscanf(ListName, "<%127[^>]", Trimed), 314: fails without touching Trimed, which is then read uninitialised, when
    there is nothing between '<' and '>'. *)
Fixpoint until_gt (w : nat) (l : list Z) : list Z :=
  match w, l with
  | S w', c :: l' => if c =? 62 then [] else c :: until_gt w' l'
  | _, _ => []
  end.

(** HostsContainer_Add, 336-387, with AddIP, AddCName, AddGoodIpList, AddExcluded, 276-334. *)
Definition hosts_add (h : hosts) (s domain : list Z) : outcome (htype * hosts) :=
  let ty := determine_type s in
  match ty with
  | HT_a | HT_aaaa => let! h' := add_node h domain ty (HA_addr (parse s)) in Ret (ty, h')
  | HT_cname => let! h' := add_node h domain ty (HA_text s) in Ret (ty, h')
  | HT_exclude => let! h' := add_node h domain ty HA_null in Ret (ty, h')
  | HT_good => match until_gt 127 (tl s) with
               | [] => UBR
               | l => let! h' := add_node h domain ty (HA_text l) in Ret (ty, h')
               end
  | HT_unknown => Ret (HT_unknown, h)
  end.

(** HostsContainer_Load, 389-408 (DOMAIN_NAME_LENGTH_MAX is 128). *)
Definition hosts_load (h : hosts) (line : list Z) : outcome (htype * hosts) :=
  match scan_token 128 line with
  | None => Ret (HT_unknown, h)
  | Some (s, rest) =>
    match scan_token 128 rest with
    | None => Ret (HT_unknown, h)
    | Some (domain, _) => hosts_add h s domain
    end
  end.

(** A table after loading lines: StaticHosts_Init 35-41, DynamicHosts_Load 62-77 (whose lines ReadLine gives). *)
Fixpoint hosts_of (h : hosts) (lines : list (list Z)) : outcome hosts :=
  match lines with
  | [] => Ret h
  | l :: lines' => let! r := hosts_load h l in hosts_of (snd r) lines'
  end.

(** HostsContainer_Find, 90-145: the loop from 111, then the node found with the Type that Func is given. *)
Fixpoint find_loop (fuel : nat) (h : hosts) (o : option nat) (ty : htype) (m46 : option nat) : outcome (option nat * htype) :=
  match o with
  | None => Ret (m46, ty)
  | Some i =>
    match fuel with
    | O => Fuel
    | S fuel' =>
      match nth_error (h_nodes h) i with
      | None => UBR
      | Some n =>
        if ht_eqb ty HT_unknown || ht_eqb (hn_type n) ty then Ret (Some i, hn_type n)
        else find_loop fuel' h (hn_next n) ty
               (if ht_eqb ty HT_aaaa && ht_eqb (hn_type n) HT_a && match m46 with None => true | _ => false end then Some i else m46)
      end
    end
  end.
(** HostsContainer_Find, hostscontainer.c 90-145. *)
Definition hosts_find (h : hosts) (name : list Z) (ty : htype) : outcome (option (htype * hdata)) :=
  let! m := chunk_match fn (h_map h) name None any_data in
  match m with
  | None => Ret None
  | Some d =>
    let! r := find_loop (S (length (h_nodes h))) h d ty None in
    match fst r with
    | None => Ret None
    | Some i => match nth_error (h_nodes h) i with None => UBR | Some n => Ret (Some (snd r, hn_data n)) end
    end
  end.

(** HostsUtils_TypeExisting, hostsutils.c 30-42. *)
Definition type_existing (h : hosts) (name : list Z) (ty : htype) : outcome bool :=
  let! r := hosts_find h name ty in Ret (match r with Some _ => true | None => false end).

(** HostsUtils_GetCName, 16-28: the text copied to Buffer; [None]: non-zero. *)
Definition get_cname (h : hosts) (name : list Z) : outcome (option (list Z)) :=
  let! r := hosts_find h name HT_cname in
  match r with
  | None => Ret None
  | Some (_, HD_text s) => Ret (Some s)
  | Some _ => UBR
  end.

(** HostsUtils_Generate, 44-120: the record given to the generator (type, data); [None]: non-zero.  A CNAME's data is the
    text of its target. *)
Inductive hanswer := AN_cname (target : list Z) | AN_a (b : list Z) | AN_aaaa (b : list Z).
(** What HostsUtils_Generate is given for an item, hostsutils.c 44-120: the address, the list's address or the alias. *)
Definition hosts_answer (h : hosts) (ty : htype) (d : hdata) : outcome (option hanswer) :=
  match ty, d with
  | HT_cname, HD_text s => Ret (Some (AN_cname s))
  | HT_a, HD_addr i => match nth_error (h_ips h) i with None => UBR | Some a => Ret (Some (AN_a (skipn 12 (ip_bytes a)))) end
  | HT_aaaa, HD_addr i => match nth_error (h_ips h) i with None => UBR | Some a => Ret (Some (AN_aaaa (ip_bytes a))) end
  | HT_good, HD_text s => Ret (match good s with Some b => Some (AN_a b) | None => None end)
  | HT_exclude, _ | HT_unknown, _ => Ret None
  | _, _ => UBR
  end.

(** HostsUtils_Try, 122-256, up to what the answer is: [Rec] is RECURSED, [No] is NONE.  The building of the message is
    in Hmsg_Model. *)
Inductive tryres := T_blocked | T_none | T_recursed | T_answer (a : hanswer).
(** The choices of HostsUtils_Try, hostsutils.c 122-256. *)
Definition utils_try (h : hosts) (name : list Z) (qtype : Z) : outcome tryres :=
  let! c := (if qtype =? 5 then Ret false else type_existing h name HT_cname) in
  if c : bool then Ret T_recursed
  else
    let! m :=
      (if qtype =? 5 then let! r := hosts_find h name HT_cname in Ret (option_map (fun _ => HT_cname) r)
       else if qtype =? 1 then
         let! r := hosts_find h name HT_a in
         match r with
         | Some _ => Ret (Some HT_a)
         | None => let! r2 := hosts_find h name HT_good in Ret (option_map (fun _ => HT_good) r2)
         end
       else if qtype =? 28 then let! r := hosts_find h name HT_aaaa in Ret (option_map (fun _ => HT_aaaa) r)
       else Ret None) in
    match m with
    | None => Ret T_none
    | Some ty =>
      let! r := hosts_find h name ty in
      match r with
      | None => Ret T_none
      | Some (ty', d) => let! a := hosts_answer h ty' d in Ret (match a with Some a => T_answer a | None => T_none end)
      end
    end.

(** StaticHosts_*, statichosts.c 51-79, and DynamicHosts_*, dynamichosts.c 241-302: a table that has not been loaded
    ([None]: Inited is FALSE, MainDynamicContainer is NULL) has nothing. *)
Definition opt_exist (h : option hosts) (name : list Z) (ty : htype) : outcome bool :=
  match h with None => Ret false | Some h => type_existing h name ty end.
(** The table may be missing: StaticHosts_Try statichosts.c 71-79, DynamicHosts_Try dynamichosts.c 283-302. *)
Definition opt_try (h : option hosts) (name : list Z) (qtype : Z) : outcome tryres :=
  match h with None => Ret T_none | Some h => utils_try h name qtype end.
(** StaticHosts_GetCName statichosts.c 51-59, DynamicHosts_GetCName dynamichosts.c 241-260. *)
Definition opt_cname (h : option hosts) (name : list Z) : outcome (option (list Z)) :=
  match h with None => Ret None | Some h => get_cname h name end.

(** Hosts_TypeExisting, hosts.c 18-22. *)
Definition both_exist (st dy : option hosts) (name : list Z) (ty : htype) : outcome bool :=
  let! a := opt_exist st name ty in if a : bool then Ret true else opt_exist dy name ty.

(** Hosts_Try_Inner, 24-35. *)
Definition try_inner (st dy : option hosts) (name : list Z) (qtype : Z) : outcome tryres :=
  let! r := opt_try st name qtype in
  match r with T_none => opt_try dy name qtype | _ => Ret r end.

(** Hosts_GetCName, 37-41. *)
Definition both_cname (st dy : option hosts) (name : list Z) : outcome (option (list Z)) :=
  let! r := opt_cname st name in match r with Some s => Ret (Some s) | None => opt_cname dy name end.

(** Hosts_Try, 43-84; the request to the inner socket is sent successfully. *)
Definition hosts_try (block6 : bool) (st dy : option hosts) (name : list Z) (qtype : Z) : outcome tryres :=
  let! b :=
    (if block6 && (qtype =? 28) then
       let! a := both_exist st dy name HT_a in if a : bool then Ret true else both_exist st dy name HT_good
     else Ret false) in
  if b : bool then Ret T_blocked
  else
    let! x := both_exist st dy name HT_exclude in
    if x : bool then Ret T_none else try_inner st dy name qtype.
End Hosts.
