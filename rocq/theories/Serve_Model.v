(** Model of the way of one query through the program (MMgr_Send, mmgr.c 818-877, with the functions it calls; a turn of UdpFrontend_Work, udpfrontend.c 36-104). *)
From Verif Require Import Base Hash_Model Bst_Model Sht_Model Chunk_Model Line_Model Filter_Model Mmgr_Model Cht_Model Cache_Model Fetch_Model Hosts_Model Mctx_Model Iheader_Model Udpm_Model Hmsg_Model Tcp_Model.

(** What the program holds while it serves queries: DisabledTypes and DisabledDomain (filter.c 17-40), BlockIpv6WhenIpv4Exists (hosts.c 14), the two hosts tables
    (statichosts.c 12, dynamichosts.c 24), the cache (dnscache.c 27-35; None: UseCache is off), CurModuleMap, EnableTCPtoUDP and EnableUDPtoTCP (mmgr.c 36-43). *)
Record holds := mk_holds {
  k_types : option (bst Z); k_domains : option (chunk unit); k_block6 : bool; k_static : option hosts; k_dynamic : option hosts;
  k_cache : option cache; k_map : mmap; k_t2u : bool; k_u2t : bool }.

(** Where a query goes in the end, mmgr.c 828-876: nowhere as it has been answered; to the thread that follows aliases (hosts.c 70-76); to a server group, as the
    context that its Send is given (mmgr.c 876); nowhere as there is no group (mmgr.c 869-873). *)
Inductive next := N_done | N_alias (h : iheader) (id : list Z) | N_group (i : nat) (c : mctx) | N_dropped.
(** What happens for a query, mmgr.c 818-877: what is sent to the client, and where the query goes. *)
Record served := mk_served { v_sent : list sent; v_next : next }.

Section Serve.
(** [fn], [good] as in Hosts_Model, [hdr] as in Udpm_Model, [raw], [ignore] as in Cache_Model. *)
Context (fn : list Z -> list Z -> bool) (good : list Z -> option (list Z)) (hdr : iheader -> list Z) (raw : list Z -> list cnode -> nat -> Z) (ignore : bool).

(** What one call finds outside: arrays on the stack before they are written (StringChunk_Domain_Match, stringchunk.c 210-300, in the filter and in the choice of the
    group; Name of dnscache.c 812), the time, rand(), whether the sendto of hosts.c 70-76 and the MsgContext_SendBack of dnscache.c 957 succeed, what the send returns
    to the other MsgContext_SendBack, which ignore it (hosts.c 93, filter.c 308). *)
Record around := mk_around { a_stale1 : list Z; a_stale2 : list Z; a_name : list Z; a_now : Z; a_rnd : nat; a_inner : bool; a_sent : bool; a_ret : Z }.

(** The end of MMgr_Send, mmgr.c 845-876, under the read lock (which is left to C47). *)
Definition to_group (k : holds) (a : around) (c : mctx) (s : list sent) : outcome served :=
  let h := c_h c in
  let tcp := match h_back h with None => true | Some _ => h_reqtcp h end in
  let! g := choose fn (a_stale2 a) (k_map k) (k_t2u k) (k_u2t k) tcp (h_domain h) (h_hash h) (a_rnd a) (ctx_id c) in
  Ret (mk_served s (match g with Some i => N_group i c | None => N_dropped end)).

(** MMgr_Send, mmgr.c 818-877, with Filter_Out, filter.c 303-317; logs and statistics are left out. *)
Definition serve (fuel nf : nat) (k : holds) (a : around) (c : mctx) : outcome served :=
  let h := c_h c in
  let! x := is_disabled_type (k_types k) (h_type h) in
  let! y := (if x : bool then Ret true else is_disabled_domain fn (a_stale1 a) (k_domains k) (h_domain h) (h_hash h)) in
  if y : bool then let! s := send_refused hdr c (a_ret a) in Ret (mk_served [fst s] N_done)
  else
    let! r := hosts_get fn good hdr fuel (k_block6 k) (k_static k) (k_dynamic k) c (a_inner a) (a_ret a) in
    let '(code, e, c1) := r in
    if code =? 0
    then Ret (match e with H_nothing => mk_served [] N_done | H_sent s _ => mk_served [s] N_done | H_inner h1 id => mk_served [] (N_alias h1 id) end)
    else
      match k_cache k with
      | None => to_group k a c1 []
      | Some m =>
        if h_len (c_h c1) <? 0 then UBR
        else
          let! r2 := fetch raw ignore nf (a_name a) fuel m (c_entity c1) (Z.to_nat (h_len (c_h c1))) (h_edns (c_h c1)) (a_now a) (a_sent a) in
          let '(code2, mem, len) := r2 in
          let c2 := with_entity c1 (Z.of_nat len) mem in
          if (code2 =? 0) || (code2 =? -861)
          then
            let! s := send_back hdr c2 (a_ret a) in
            if code2 =? 0 then Ret (mk_served [fst s] N_done) else to_group k a c2 [fst s]
          else to_group k a c2 []
      end.

(** One turn of UdpFrontend_Work with MMgr_Send, udpfrontend.c 36-104, for a datagram that has been received. *)
Definition udp_serve (fuel nf : nat) (k : holds) (a : around) (b : ubuf) (d : dgram) : outcome served :=
  let! r := udp_turn (fun b => b) fuel nf b (Some d) in
  match fst r with Some c => serve fuel nf k a c | None => Ret (mk_served [] N_done) end.

(** A turn of TcpFrontend_Work with MMgr_Send, tcpfrontend.c 85-113, on the connection [c] with the descriptor [sock] and the text [agent] of its address; the rest of the
    turn is in Tfe_Model. *)
Definition tcp_serve (fuel nf : nat) (k : holds) (a : around) (b : ubuf) (c : net) (sock : Z) (agent : list Z) : outcome served :=
  let! q := tcp_query c (u_mem b) in
  match q with
  | NoQuery => Ret (mk_served [] N_done)
  | Query mem n _ =>
    let! r := ih_fill fuel nf (u_h b) (u_dom b) false mem (Z.to_nat n) None sock (Some agent) in
    let '(_, h, _) := r in
    serve fuel nf k a (mk_ctx h mem)
  end.
End Serve.
