(** Model of the UDP upstream module (udpm.c) and of handing a reply to its client (iheader.c 152-219). *)
From Verif Require Import Base Hash_Model Name_Model Parser_Model Gen_Model Bst_Model Mctx_Model Iheader_Model Ip_Model Cht_Model Cache_Model Rdata_Model Arr_Model.

(** One call of send (to is None) or sendto: socket, destination, bytes. iheader.c 159-206. *)
Record sent := mk_sent { s_sock : Z; s_to : option (list Z); s_bytes : list Z }.

(** MsgContext_SendBack, iheader.c 159-206: what is sent, and the result if the call returns [n].  [hdr] gives the bytes of a header as they
    are in memory (used with ReturnHeader only).  A negative EntityLength, which only an uninitialised header could have, counts as a wild read. *)
Definition send_back (hdr : iheader -> list Z) (c : mctx) (n : Z) : outcome (sent * Z) :=
  let h := c_h c in
  match (if h_len h <? 0 then None else slice (c_entity c) 0 (Z.to_nat (h_len h))) with
  | None => UBR
  | Some content =>
    match h_back h with
    | None =>
      let bytes := be16 (h_len h mod 65536) ++ content in
      Ret (mk_sent (h_sock h) None bytes, if n =? Z.of_nat (length bytes) then 0 else -112)
    | Some a =>
      let bytes := (if h_rethdr h then hdr h else []) ++ content in
      Ret (mk_sent (h_sock h) (Some a) bytes, if n =? Z.of_nat (length bytes) then 0 else -138)
    end
  end.

(** The flags that MsgContext_SendBackRefusedMessage sets, iheader.c 213-215 (dnsparser.h 85-118: Direction is the highest bit of the third byte,
    RecursionAvailable the highest and ResponseCode the four lowest of the fourth). *)
Definition refuse_flags (m : list Z) : outcome (list Z) :=
  match nth_error m 2, nth_error m 3 with
  | Some x, Some y => bwrite m 2 [x mod 128 + 128; (y mod 128) / 16 * 16 + 128]
  | _, _ => UBR
  end.
(** MsgContext_SendBackRefusedMessage, iheader.c 208-219. *)
Definition send_refused (hdr : iheader -> list Z) (c : mctx) (n : Z) : outcome (sent * Z) :=
  let! m := refuse_flags (c_entity c) in send_back hdr (mk_ctx (c_h c) m) n.

Section Udp.
Context {A : Type}.
(** What does not change while the module runs: -ap; IPMiscMapping_Process' table with its BlockNegativeResponse (None: no table,
    ipmisc.c 388-391); Parallels.addrs; the cache's parameters (dnscache.c 633-675); bytes of a header and of an array Domain that holds a string. *)
Context (ap : bool) (misc : option (ipchunk * bool)) (par : option (list A)).
Context (raw : list Z -> list cnode -> nat -> Z) (ignore parallel : bool) (get : list Z -> option ctrl).
Context (hdr : iheader -> list Z) (arr : list Z -> list Z).
Context (fuel nf : nat).

(** struct _UdpM, udpm.h 12-45, with the receive buffer of UdpM_Works (udpm.c 79) and the cache (None: not initialised).  [u_open]: Departure is
    a socket; [u_alive]: IsServer. *)
Record udpm := mk_udpm { u_tab : bst mctx; u_rb : ubuf; u_cache : option cache; u_open : bool; u_cnt : Z; u_addrs : addrlist A; u_alive : bool }.

(** What happens in one step; a thread's work under the module's lock is one step. udpm.c 11-328. *)
Inductive uev :=
| VQueued (to : list (A * list Z)) (code : Z) | VNothing | VDiscarded (why : Z) | VUnmatched | VReplied (s : sent) (code : Z) | VTimeouts (l : list (mctx * Z)).

(** MsgContext_AddFakeEdns, iheader.c 113-143, with its conditions. *)
Definition with_edns (c : mctx) : outcome mctx :=
  if negb ap || h_edns (c_h c) then Ret c
  else let! r := fake_edns fuel (c_entity c) (Z.to_nat (h_len (c_h c))) in
       match r with
       | None => Ret c
       | Some (l, m) => let h := c_h c in
           Ret (mk_ctx (mk_ih (h_parent h) (h_reqtcp h) (h_time h) (h_back h) (h_sock h) (h_domain h) (h_hash h) (h_type h) (h_rethdr h) true (Z.of_nat l) (h_agent h)) m)
       end.

(** UdpM_Send, udpm.c 257-328, at time [now]; [ok a]: sendto to the address [a] returns something positive.  Context.Add does not fail (no allocation
    failure).  The result of Send is 0 if something has been sent. *)
Definition u_send (s : udpm) (c : mctx) (now : Z) (ok : A -> bool) : outcome (uev * udpm) :=
  let! c1 := with_edns c in
  let! r := mc_add (u_tab s) c1 now in
  let s1 := mk_udpm (snd r) (u_rb s) (u_cache s) (u_open s) (u_cnt s) (u_addrs s) (u_alive s) in
  if u_open s
  then
    match (if h_len (c_h c1) <? 0 then None else slice (c_entity c1) 0 (Z.to_nat (h_len (c_h c1)))) with
    | None => UBR
    | Some bytes =>
      match par with
      | Some l => Ret (VQueued (map (fun a => (a, bytes)) l) (if existsb ok l then 0 else 1), s1)
      | None =>
        let! a := al_get (u_addrs s) in
        match a with
        | None => Ret (VQueued [] (-277), s1)
        | Some a => Ret (VQueued [(a, bytes)] (if ok a then 0 else 1), s1)
        end
      end
    end
  else Ret (VQueued [] 1, s1).

(** A datagram that recvfrom gives, with what else the turn depends on: uninitialised variables (the iterator's in IPMisc_Process; HostName and Buffer
    of DNSCache_AddItemsToCache), the clock, what send returns to MsgContext_SendBack. udpm.c 75-260. *)
Record rx := mk_rx { x_bytes : list Z; x_it : purpose * Z * Z * Z; x_host : list Z; x_buf : list Z; x_clk : Z -> Z; x_ret : Z }.

(** IPMiscMapping_Process, ipmisc.c 383-403. *)
Definition misc_apply (h : iheader) (m : list Z) (it : purpose * Z * Z * Z) : outcome (Z * list Z) :=
  match misc with
  | None => Ret (misc_nothing, m)
  | Some (c, neg) =>
    let '(p0, t0, k0, d0) := it in
    if h_len h <? 0 then Ret (misc_nothing, m) else misc_process fuel c neg m (Z.to_nat (h_len h)) p0 t0 k0 d0
  end.

(** DNSCache_AddItemsToCache, dnscache.c 633-675, if there is a cache (640-643).  A negative EntityLength is too short for a message. *)
Definition cache_apply (s : udpm) (first : bool) (c : mctx) (x : rx) : outcome (option cache) :=
  match u_cache s with
  | None => Ret None
  | Some k =>
    if h_len (c_h c) <? 0 then Ret (Some k)
    else let! r := add_items raw ignore parallel get nf (x_host x) (x_buf x) (x_clk x) fuel first (c_entity c) (Z.to_nat (h_len (c_h c))) (h_domain (c_h c)) k in Ret (Some (snd r))
  end.

(** What is done with the message of [n] bytes at the front of the buffer [mem], udpm.c 183-250 and, the same, tcpm.c 677-733.  The domain statistic and
    the log are not modelled here. *)
Definition u_handle (s : udpm) (mem : list Z) (n : nat) (x : rx) : outcome (uev * udpm) :=
  let b := u_rb s in
  let! r := ih_fill fuel nf (u_h b) (u_dom b) false mem n None (-1) None in
  let '(_, h, dom) := r in
  let! w := misc_apply h mem (x_it x) in
  let '(why, mem1) := w in
  let dropped := mk_udpm (u_tab s) (mk_ubuf h dom mem1) (u_cache s) (u_open s) 0 (u_addrs s) (u_alive s) in
  if negb (why =? misc_nothing) then Ret (VDiscarded why, dropped)
  else if is_blocked ap (mk_ctx h mem1) then Ret (VDiscarded misc_nothing, dropped)
  else
    let! a := mc_answer (u_tab s) (mk_ctx h mem1) in
    let '(code, c, tab) := a in
    let! k := cache_apply s (code =? 0) c x in
    if code =? 0
    then let! t := send_back hdr c (x_ret x) in
         Ret (VReplied (fst t) (snd t), mk_udpm tab (mk_ubuf (c_h c) (arr (h_domain (c_h c))) mem1) k (u_open s) 0 (u_addrs s) (u_alive s))
    else Ret (VUnmatched, mk_udpm tab (mk_ubuf h dom mem1) k (u_open s) 0 (u_addrs s) (u_alive s)).

(** UdpM_Works, udpm.c 167-250: from recvfrom to the end of the turn. *)
Definition u_receive (s : udpm) (x : rx) : outcome (uev * udpm) :=
  let mem := u_mem (u_rb s) in
  let bytes := firstn (length mem) (x_bytes x) in
  match bytes with
  | [] => Ret (VNothing, s)
  | _ => u_handle s (bytes ++ skipn (length bytes) mem) (length bytes) x
  end.

(** What select gives, udpm.c 138-165: an error, nothing within the time, or something that recvfrom reads (None: it fails). *)
Inductive sel := SelError | SelIdle | SelData (x : option rx).

(** Setting up the socket if there is none, udpm.c 96-133; [sock_ok]: socket() succeeds.  None: the loop is left (and UdpM_Cleanup runs, udpm.c 54-67). *)
Definition u_setup (s : udpm) (sock_ok : bool) : outcome (option udpm) :=
  if u_open s then Ret (Some s)
  else
    let opened := if sock_ok then Some (mk_udpm (u_tab s) (u_rb s) (u_cache s) true 0 (u_addrs s) (u_alive s)) else None in
    match par with
    | Some _ => Ret opened
    | None => let! a := al_get (u_addrs s) in Ret (match a with None => None | Some _ => opened end)
    end.
(** The socket is closed: 142-144, 151-153. *)
Definition u_close (s : udpm) : udpm := mk_udpm (u_tab s) (u_rb s) (u_cache s) false (u_cnt s) (u_addrs s) (u_alive s).
(** UdpM_Cleanup, udpm.c 54-67 (the addresses are freed; nothing uses them any more in the model, where queries to a module that has ended are
    not considered). *)
Definition u_cleanup (s : udpm) : udpm := mk_udpm (u_tab s) (u_rb s) (u_cache s) false (u_cnt s) (u_addrs s) false.
(** A turn of the loop of UdpM_Works, udpm.c 89-251. *)
Definition u_turn (s : udpm) (sock_ok : bool) (e : sel) : outcome (uev * udpm) :=
  if negb (u_alive s) then Ret (VNothing, s)
  else
    let! o := u_setup s sock_ok in
    match o with
    | None => Ret (VNothing, u_cleanup s)
    | Some s1 =>
      match e with
      | SelError => Ret (VNothing, u_close s1)
      | SelIdle => Ret (VNothing, if 8 <? u_cnt s1 then u_close s1 else s1)
      | SelData None => Ret (VNothing, s1)
      | SelData (Some x) => u_receive s1 x
      end
    end.

(** SweepTask with SweepWorks, udpm.c 11-32. *)
Definition u_sweep (s : udpm) (now : Z) : outcome (uev * udpm) :=
  let! r := mc_sweep (u_tab s) now in
  Ret (VTimeouts (fst r), mk_udpm (snd r) (u_rb s) (u_cache s) (u_open s) (u_cnt s + Z.of_nat (length (fst r)))
                            (if existsb (fun y => snd y =? 1) (fst r) then al_advance (u_addrs s) else u_addrs s) (u_alive s)).

(** The module's threads and callers, in any order: udpm.c 11-52 (sweep thread), 69-254 (worker), 257-328 (callers of Send). *)
Inductive uop := UQuery (c : mctx) (now : Z) (ok : A -> bool) | UTurn (sock_ok : bool) (e : sel) | USweep (now : Z).
(** One step of one of them, udpm.c 11-328. *)
Definition u_step (s : udpm) (o : uop) : outcome (uev * udpm) :=
  match o with UQuery c now ok => u_send s c now ok | UTurn sock_ok e => u_turn s sock_ok e | USweep now => u_sweep s now end.
(** A history of the module, udpm.c 11-328. *)
Fixpoint u_run (s : udpm) (os : list uop) : outcome (list uev * udpm) :=
  match os with
  | [] => Ret ([], s)
  | o :: os' => let! r := u_step s o in let! r' := u_run (snd r) os' in Ret (fst r :: fst r', snd r')
  end.
End Udp.
