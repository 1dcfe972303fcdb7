(** Model of addresses given as text (addresslist.c 41-128, GetAddressFamily of utils.c) and of what is made of them: the lists of
    upstream servers, the interfaces of the front ends and the internal sockets on the loopback interface. *)
From Verif Require Import Base Hash_Model Ttl_Model Addr_Model Arr_Model Slist_Model.

(** Address_Type, addresslist.h 11-17 (with family, address and port only). *)
Record saddr := mk_sa { sa_v6 : bool; sa_bytes : list Z; sa_port : Z }.

(** strtoul(3) with base 0 on a text that begins with a digit, as inet_addr(3) calls it (FILL_ADDR4, common.h 229-231): "0x" is
    hexadecimal, "0" is octal. *)
Definition strtoul0 (s : list Z) : Z * list Z :=
  if nth 0 s 0 =? 48 then
    if ((nth 1 s 0 =? 120) || (nth 1 s 0 =? 88)) && (digit (nth 2 s 0) <? 16)
    then let '(d, l) := take_base 16 (skipn 2 s) in (base_value 16 d, l)
    else let '(d, l) := take_base 8 s in (base_value 8 d, l)
  else let '(d, l) := take_base 10 s in (base_value 10 d, l).
(** The components that inet_addr reads (glibc; FILL_ADDR4, common.h 229-231): at most [n] more of them after a dot; all but the
    last are bytes.  The second result is the rest of the text. *)
Fixpoint inet_parts (n : nat) (s : list Z) : option (list Z * list Z) :=
  if digit (nth 0 s 0) <? 10 then
    let '(v, l) := strtoul0 s in
    if 4294967295 <? v then None
    else match l with
         | c :: l' => if c =? 46 then
                        match n with
                        | O => None
                        | S n' => if 255 <? v then None else match inet_parts n' l' with None => None | Some (vs, r) => Some (v :: vs, r) end
                        end
                      else Some ([v], l)
         | [] => Some ([v], [])
         end
  else None.
(** [v] in [n] bytes, most significant first; the last component of inet_addr (common.h 229-231). *)
Fixpoint be_bytes (n : nat) (v : Z) : list Z := match n with O => [] | S n' => be_bytes n' (v / 256) ++ [v mod 256] end.
(** inet_addr(3) as FILL_ADDR4 uses it, common.h 229-231: the four bytes; INADDR_NONE is 255.255.255.255. *)
Definition inet_addr (s : list Z) : list Z :=
  match inet_parts 3 s with
  | None => [255; 255; 255; 255]
  | Some (vs, r) =>
    let front := removelast vs in
    let n := (4 - length front)%nat in
    if match r with [] => true | c :: _ => is_space c end then
      if last vs 0 <? 256 ^ Z.of_nat n then front ++ be_bytes n (last vs 0) else [255; 255; 255; 255]
    else [255; 255; 255; 255]
  end.

(** GetAddressFamily, utils.c 533-548: [None] is AF_UNSPEC, [Some true] AF_INET6. *)
Definition get_family (stale : nat -> Z) (s : list Z) : option bool :=
  match str_chr 91 s with
  | Some _ => Some true
  | None => if fst (v4_to_num stale s) =? 4 then Some false else None
  end.
(** "%<n>[^<c>]" of sscanf, addresslist.c 68 and 100: what it stores in a buffer of zeros, as a string. *)
Fixpoint take_until (n : nat) (c : Z) (s : list Z) : list Z :=
  match n, s with S n', x :: r => if x =? c then [] else x :: take_until n' c r | _, _ => [] end.
(** "%hu" of sscanf, addresslist.c 75 and 106: strtoul saturates, the conversion to 16 bits wraps; [None]: the variable is left
    alone. *)
Definition scan_hu (s : list Z) : option Z :=
  match scan_num 10 s with
  | None => None
  | Some (v, _) => Some ((if (18446744073709551615 <? v) || (v <? -18446744073709551615) then 18446744073709551615 else v) mod 65536)
  end.
(** The port, addresslist.c 70-76 and 102-107: [s] is the text in which a colon is looked for; [sport] is what the variable held. *)
Definition port_of (sport dport : Z) (s : list Z) : Z :=
  match str_chr 58 s with
  | None => dport mod 65536
  | Some p => match scan_hu (tl p) with None => sport mod 65536 | Some v => v end
  end.
(** AddressList_ConvertFromString, addresslist.c 41-115: [None] is AF_UNSPEC.  The result of IPv6AddressToNum is not looked at. *)
Definition convert (stale : nat -> Z) (sport dport : Z) (s : list Z) : outcome (option saddr) :=
  match get_family stale s with
  | None => Ret None
  | Some true =>
    match str_chr 93 s with
    | None => Ret None
    | Some e => let! r := v6_to_num stale (take_until 45 93 (tl s)) in
                Ret (Some (mk_sa true (snd r) (port_of sport dport e)))
    end
  | Some false => Ret (Some (mk_sa false (inet_addr (take_until 15 58 s)) (port_of sport dport s)))
  end.

(** AddressList_Add_From_String, addresslist.c 117-128; the calls' results are not looked at by their callers. *)
Definition al_add_text (stale : nat -> Z) (sport dport : Z) (a : addrlist saddr) (s : list Z) : outcome (addrlist saddr) :=
  let! r := convert stale sport dport s in
  match r with None => Ret a | Some x => Ret (al_add a x) end.
(** The loops over the items, udpm.c 362-367, tcpm.c 794-797 and 854-857; [junk i] is what the stack holds in the [i]th round. *)
Fixpoint al_add_texts (junk : nat -> (nat -> Z) * Z) (i : nat) (dport : Z) (a : addrlist saddr) (items : list (list Z)) : outcome (addrlist saddr) :=
  match items with
  | [] => Ret a
  | x :: items' => let! a' := al_add_text (fst (junk i)) (snd (junk i)) dport a x in al_add_texts junk (S i) dport a' items'
  end.
(** UdpM_Init 330-370, TcpM_Init 768-799 and 840-857: the list of the servers (default port 53) or of the proxies (1080).
    [None]: the list of strings could not be made. *)
Definition load_services (fuel : nat) (ok : bool) (mem : nat -> Z) (junk : nat -> (nat -> Z) * Z) (dport : Z) (text : list Z) : outcome (option (addrlist saddr)) :=
  let! r := sl_add ok mem [] text (Some [44; 32]) in
  if fst r then
    let! s := trim_all fuel (Some [9; 32; 46]) (snd r) in
    let! items := sl_walk fuel s None in
    let! a := al_add_texts junk 0 dport al_init items in Ret (Some a)
  else Ret None.

(** * Opening sockets *)
(** What the system answers to socket, bind and listen for an address: the first that fails, or the socket.  udpfrontend.c 160-180,
    tcpfrontend.c 189-215, utils.c 1278-1294. *)
Inductive sockres := NoSocket | NoBind (fd : Z) | NoListen (fd : Z) | Opened (fd : Z).
(** What a front end has opened, udpfrontend.c 138-190, tcpfrontend.c 167-226: the sockets watched with their addresses, the
    sockets closed again, those neither watched nor closed, and Ipv6_Enabled. *)
Record opened := mk_op { op_in : list (Z * saddr); op_closed : list Z; op_lost : list Z; op_v6 : bool }.
(** UdpFrontend_Init 145-190 and TcpFrontend_Init 174-226; [tcp]: listen is called also, and its failure ends the loop.
    [os i] is what the system answers in the [i]th round. *)
Fixpoint open_loop (tcp : bool) (os : nat -> saddr -> sockres) (junk : nat -> (nat -> Z) * Z) (i : nat) (o : opened) (items : list (list Z)) : outcome opened :=
  match items with
  | [] => Ret o
  | x :: items' =>
    let! r := convert (fst (junk i)) (snd (junk i)) 53 x in
    match r with
    | None => open_loop tcp os junk (S i) o items'
    | Some a =>
      let add fd := mk_op (op_in o ++ [(fd, a)]) (op_closed o) (op_lost o) (sa_v6 a || op_v6 o) in
      match os i a with
      | NoSocket => open_loop tcp os junk (S i) o items'
      | NoBind fd => open_loop tcp os junk (S i) (mk_op (op_in o) (op_closed o ++ [fd]) (op_lost o) (op_v6 o)) items'
      | NoListen fd => if tcp then Ret (mk_op (op_in o) (op_closed o) (op_lost o ++ [fd]) (op_v6 o))
                       else open_loop tcp os junk (S i) (add fd) items'
      | Opened fd => open_loop tcp os junk (S i) (add fd) items'
      end
    end
  end.
(** UdpFrontend_Init 120-205 and TcpFrontend_Init 150-240: [items] are the strings of the option, [None] if it was not given;
    the result code and what was opened.  [v6] is Ipv6_Enabled before; the socket set could be made. *)
Definition frontend_init (tcp : bool) (os : nat -> saddr -> sockres) (junk : nat -> (nat -> Z) * Z) (v6 : bool) (items : option (list (list Z))) : outcome (Z * opened) :=
  let o0 := mk_op [] [] [] v6 in
  match items with
  | None => Ret (-11, o0)
  | Some items => let! o := open_loop tcp os junk 0 o0 items in
                  Ret (if Nat.eqb (length (op_in o)) 0 then -163 else 0, o)
  end.

(** TryBindLocal, utils.c 1266-1307: [left] attempts at most (10000), [k] made before; the socket and its address. *)
Fixpoint try_bind (left : nat) (os : nat -> saddr -> sockres) (junk : nat -> (nat -> Z) * Z) (v6 : bool) (start : Z) (k : nat) : outcome (option (Z * saddr)) :=
  match left with
  | O => Ret None
  | S left' =>
    let! r := convert (fst (junk k)) (snd (junk k)) (start + Z.of_nat k) (if v6 then [91; 58; 58; 49; 93] else [49; 50; 55; 46; 48; 46; 48; 46; 49]) in
    match r with
    | None => try_bind left' os junk v6 start (S k)
    | Some a => match os k a with
                | NoSocket | NoBind _ => try_bind left' os junk v6 start (S k)
                | NoListen fd | Opened fd => Ret (Some (fd, a))
                end
    end
  end.
(** TryBindLocal as a whole, utils.c 1266-1307. *)
Definition try_bind_local (os : nat -> saddr -> sockres) (junk : nat -> (nat -> Z) * Z) (v6 : bool) (start : Z) : outcome (option (Z * saddr)) :=
  try_bind (Z.to_nat 10000) os junk v6 start 0.
