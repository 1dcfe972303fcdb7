(** Model of the TCP upstream module (tcpm.c): its connections and what is sent on them, and its worker.

    Everything that comes from outside (select, connect, send, recv, the clock, rand) is given by [tenv], indexed by the number of calls made so far;
    connect also knows which sockets are open.  Section variables: the servers' addresses as text and port, the number of proxies (None: SocksProxies
    is NULL), Parallel, TCPM_Keep_Alive, Incoming and what is on the stack in TcpCtxNew. *)
From Verif Require Import Base Hash_Model Bst_Model Mctx_Model Iheader_Model Ip_Model Cht_Model Cache_Model Sock_Model Tcp_Model Arr_Model Udpm_Model.

(** struct _TcpContext, tcpm.c 25-34; MsgCtx is the address of a node of the table of pending queries.  Queried is not bounded. *)
Record tctx := mk_tctx { tc_srv : nat; tc_last : Z; tc_queried : Z; tc_qid : Z; tc_hash : Z; tc_msg : option nat }.
(** The data of a socket that is added without any, socketpool.c 25 (tcpm.c 769). *)
Definition tctx0 : tctx := mk_tctx 0 0 0 0 0 None.

(** What the module does to its sockets, tcpm.c 49-534 and 622-675: the one for queries from the callers (made in TcpM_Init, 762); a
    connection is opened to server or proxy [i]; a proxy is told which server to connect to; [msg] is sent ([out] is what goes out); a message is received
    completely; a socket is closed. *)
Inductive tev :=
| TListen (s : Z) | TOpen (s : Z) (proxy : bool) (i : nat) | TPrep (s : Z) (i : nat) (ok : bool) | TSent (s : Z) (msg out : list Z) (ok : bool) | TGot (s : Z) | TClose (s : Z).

(** The results of the calls that tcpm.c 49-485 makes, by the number of calls made before.  [v_conn]: the new socket if socket(), SetSocketNonBlock and
    connect do not fail (TcpM_Connect_Addr, 115-147).  [v_err0]: an incomplete send has left errno 0 (then TcpM_SendWrapper, 247-265, returns 0).  [v_prep]: what
    happens to the sends and the recvs of TcpM_ProxyPreparation. *)
Record tenv := mk_tenv {
  v_sel : nat -> list selret; v_time : nat -> Z; v_rand : nat -> Z; v_conn : nat -> list tev -> option Z;
  v_send : nat -> list attempt; v_err0 : nat -> bool; v_prep : nat -> list attempt * list attempt * net }.

(** The number of calls made, and what has been done to the sockets, the newest first. tcpm.c 49-675. *)
Record kst := mk_kst { k_tick : nat; k_log : list tev }.
(** A call is made. tcpm.c 49-675. *)
Definition ticked (k : kst) : kst := mk_kst (S (k_tick k)) (k_log k).
(** Something is done to a socket. tcpm.c 49-675. *)
Definition noted (e : tev) (k : kst) : kst := mk_kst (k_tick k) (e :: k_log k).
(** [l] with [x] in the place [i]: assignment through Backups[i], Pullers[i], Agents[i]. tcpm.c 72-73, 204, 672-675. *)
Definition set_nth {X} (l : list X) (i : nat) (x : X) : list X := firstn i l ++ x :: skipn (S i) l.

Section Tcpm.
Context (v : tenv) (targets : list (list Z * list Z)) (nproxies : option nat) (par : bool) (keep incoming : Z) (stale : tctx).

(** Select and, when there is a socket, Del: tcpm.c 60-70, 92-101, 429-443.  The data is read after Del, through the pointer that Select gave. *)
Definition take (k : kst) (p : puller tctx) : outcome (option (Z * tctx) * Z * kst * puller tctx) :=
  let! r := pl_select p (v_sel v (k_tick k)) 0 in
  match fst r with
  | None => Ret (None, snd r, ticked k, p)
  | Some (s, a) => let! p' := pl_del tctx0 p s in let! d := pl_data p' a in Ret (Some (s, d), snd r, ticked k, p')
  end.

(** p = Pullers[i]; p->Add(p, s, d): tcpm.c 72-73 and 672-675. *)
Definition put_at (ps : list (puller tctx)) (i : nat) (s : Z) (d : tctx) : outcome (list (puller tctx)) :=
  match nth_error ps i with None => UBR | Some q => let! r := pl_add q s d in Ret (set_nth ps i (snd r)) end.

(** TcpM_Connect_Recycle, tcpm.c 49-76. *)
Fixpoint recycle (fuel : nat) (k : kst) (p : puller tctx) (ps : list (puller tctx)) : outcome (kst * puller tctx * list (puller tctx)) :=
  match fuel with
  | O => Fuel
  | S fuel' =>
    let! (o, _, k1, p1) := take k p in
    match o with
    | None => Ret (k1, p1, ps)
    | Some (s, d) => let! ps' := put_at ps (tc_srv d) s d in recycle fuel' k1 p1 ps'
    end
  end.

(** TcpM_Connect_GetAvailable, tcpm.c 82-113. *)
Fixpoint get_avail (fuel : nat) (k : kst) (p : puller tctx) : outcome (option (Z * tctx) * kst * puller tctx) :=
  match fuel with
  | O => Fuel
  | S fuel' =>
    let! (o, _, k1, p1) := take k p in
    match o with
    | None => Ret (None, k1, p1)
    | Some (s, d) =>
      if keep <? v_time v (k_tick k1) - tc_last d then get_avail fuel' (noted (TClose s) (ticked k1)) p1
      else Ret (Some (s, d), ticked k1, p1)
    end
  end.

(** The servers in the order in which the loop of TcpM_Connect, tcpm.c 180-199, takes them: one, or all from a random one on.  Shift + i is an int:
    beyond its range nothing is defined. *)
Definition order (one : option nat) (n : nat) (shift : Z) : outcome (list nat) :=
  match one with
  | Some i => Ret [i]
  | None => if 2147483648 <? shift + Z.of_nat n then UBR else Ret (map (fun i => Z.to_nat ((shift + Z.of_nat i) mod Z.of_nat n)) (seq 0 n))
  end.

(** The loop of TcpM_Connect, tcpm.c 192-242, without proxies or for the proxies themselves ([proxy]: IsProxy). *)
Fixpoint connect_direct (fuel : nat) (proxy : bool) (idxs : list nat) (k : kst) (p : puller tctx) (ps : list (puller tctx)) (n : Z) : outcome (Z * kst * puller tctx * list (puller tctx)) :=
  match idxs with
  | [] => Ret (n, k, p, ps)
  | i :: rest =>
    match nth_error ps i with
    | None => UBR
    | Some q =>
      let! (o, k1, q1) := get_avail fuel k q in
      let ps1 := set_nth ps i q1 in
      match o with
      | Some (s, d) => let! r := pl_add p s d in connect_direct fuel proxy rest k1 (snd r) ps1 (n + 1)
      | None =>
        match v_conn v (k_tick k1) (k_log k1) with
        | None => connect_direct fuel proxy rest (ticked k1) p ps1 n
        | Some s =>
          let k2 := noted (TOpen s proxy i) (ticked k1) in
          let! r := pl_add p s (mk_tctx i (v_time v (k_tick k2)) 0 (tc_qid stale) (tc_hash stale) (tc_msg stale)) in
          connect_direct fuel proxy rest (ticked k2) (snd r) ps1 (n + 1)
        end
      end
    end
  end.

(** The pools that TcpM_Connect uses: QueryPuller, Agents, ProxyPuller, Proxies; tcpm.h 31-43. *)
Record pools := mk_pools { q_query : puller tctx; q_agents : list (puller tctx); q_proxy : puller tctx; q_proxies : list (puller tctx) }.

(** TcpM_Connect with IsProxy, tcpm.c 149-245, called with ServerIndex -1 (227). *)
Definition connect_proxies (fuel np : nat) (k : kst) (q : pools) : outcome (Z * kst * pools) :=
  let! (k1, p1, ps1) := recycle fuel k (q_proxy q) (q_proxies q) in
  let! l := order None np (v_rand v (k_tick k1)) in
  let! (n, k2, p2, ps2) := connect_direct fuel true l (ticked k1) p1 ps1 0 in
  Ret (n, k2, mk_pools (q_query q) (q_agents q) p2 ps2).

(** The loop of TcpM_Connect, tcpm.c 192-242, for the servers when there are proxies. *)
Fixpoint connect_via (fuel np : nat) (idxs : list nat) (k : kst) (q : pools) (n : Z) : outcome (Z * kst * pools) :=
  match idxs with
  | [] => Ret (n, k, q)
  | i :: rest =>
    match nth_error (q_agents q) i with
    | None => UBR
    | Some a =>
      let! (o, k1, a1) := get_avail fuel k a in
      let q1 := mk_pools (q_query q) (set_nth (q_agents q) i a1) (q_proxy q) (q_proxies q) in
      match o with
      | Some (s, d) => let! r := pl_add (q_query q1) s d in connect_via fuel np rest k1 (mk_pools (snd r) (q_agents q1) (q_proxy q1) (q_proxies q1)) (n + 1)
      | None =>
        let! (c, k2, q2) := connect_proxies fuel np k1 q1 in
        if 0 <? c then
          let! (o2, k3, p3) := get_avail fuel k2 (q_proxy q2) in
          let q3 := mk_pools (q_query q2) (q_agents q2) p3 (q_proxies q2) in
          match o2 with
          | None => connect_via fuel np rest k3 q3 n
          | Some (s, d) =>
            let! r := pl_add (q_query q3) s (mk_tctx i (tc_last d) (tc_queried d) (tc_qid d) (tc_hash d) (tc_msg d)) in
            connect_via fuel np rest k3 (mk_pools (snd r) (q_agents q3) (q_proxy q3) (q_proxies q3)) (n + 1)
          end
        else connect_via fuel np rest k2 q2 n
      end
    end
  end.

(** TcpM_Connect for the servers, tcpm.c 149-245, as TcpM_Send_Actual calls it (418): how many connections there are. *)
Definition t_connect (fuel : nat) (one : option nat) (k : kst) (q : pools) : outcome (Z * kst * pools) :=
  let! (k1, p1, ps1) := recycle fuel k (q_query q) (q_agents q) in
  let! l := order one (length targets) (v_rand v (k_tick k1)) in
  match nproxies with
  | None => let! (n, k2, p2, ps2) := connect_direct fuel false l (ticked k1) p1 ps1 0 in Ret (n, k2, mk_pools p2 ps2 (q_proxy q) (q_proxies q))
  | Some np => connect_via fuel np l (ticked k1) (mk_pools p1 ps1 (q_proxy q) (q_proxies q)) 0
  end.

(** ErrorOfVoidSelect, utils.c 1071-1078 (EINVAL is 22). *)
Definition void_error (e : Z) : bool := e =? 22.

(** The loop of TcpM_Send_Actual, tcpm.c 423-482, for [n] more turns; the query pool and the pool of the connections that wait for a reply (Puller); the
    message is [msg] with its length in front, of the query at [a] with id and hash [qid], [hash]. *)
Fixpoint send_loop (n : nat) (a : nat) (qid hash : Z) (msg : list Z) (k : kst) (p w : puller tctx) : outcome (kst * puller tctx * puller tctx) :=
  match n with
  | O => Ret (k, p, w)
  | S n' =>
    let! (o, err, k1, p1) := take k p in
    match o with
    | None => if negb (err =? 0) && negb (void_error err) then Ret (k1, p1, w) else send_loop n' a qid hash msg k1 p1 w
    | Some (s, d) =>
      let! (ready, k2) :=
        match nproxies with
        | Some _ =>
          if tc_queried d =? 0 then
            match nth_error targets (tc_srv d) with
            | None => UBR
            | Some (text, port) =>
              let '(s1, s2, c) := v_prep v (k_tick k1) in
              let! (ok, out, c') := proxy_preparation s1 s2 c text port in
              Ret (ok, noted (TPrep s (tc_srv d) ok) (ticked k1))
            end
          else Ret (true, k1)
        | None => Ret (true, k1)
        end in
      if negb ready then send_loop n' a qid hash msg (noted (TClose s) k2) p1 w
      else
        let (ok, out) := send_wrapper (v_send v (k_tick k2)) msg in
        let k3 := noted (TSent s msg out ok) (ticked k2) in
        if negb (ok || v_err0 v (k_tick k2)) then send_loop n' a qid hash msg (noted (TClose s) k3) p1 w
        else
          let! r := pl_add w s (mk_tctx (tc_srv d) (v_time v (k_tick k3)) (tc_queried d + 1) qid hash (Some a)) in
          send_loop n' a qid hash msg (ticked k3) p1 (snd r)
    end
  end.

(** TcpM_Send_Actual, tcpm.c 387-485, on the query [c] at [a]. *)
Definition send_actual (fuel : nat) (a : nat) (c : mctx) (one : option nat) (k : kst) (q : pools) (w : puller tctx) : outcome (kst * pools * puller tctx) :=
  match (if h_len (c_h c) <? 0 then None else slice (c_entity c) 0 (Z.to_nat (h_len (c_h c)))) with
  | None => UBR
  | Some content =>
    let msg := be16 (h_len (c_h c) mod 65536) ++ content in
    let turns := match one with None => if par then length targets else 1%nat | Some _ => 1%nat end in
    let! (n, k1, q1) := t_connect fuel one k q in
    if n <? 1 then Ret (k1, q1, w)
    else
      let! (k2, p2, w2) := send_loop turns a (ctx_id c) (h_hash (c_h c)) msg k1 (q_query q1) w in
      Ret (k2, mk_pools p2 (q_agents q1) (q_proxy q1) (q_proxies q1), w2)
  end.

(** struct _TcpM, tcpm.h 9-43, with TcpM_Works' receive buffer and the cache (as in Udpm_Model; the list of the servers is not used: its counter is
    advanced, but no address is taken by it), the kernel, NumberOfCumulated; [t_alive]: the loop runs. *)
Record tcpm := mk_tcpm { t_u : @udpm unit; t_k : kst; t_q : pools; t_wait : puller tctx; t_cum : Z; t_alive : bool }.

Context (ap : bool) (misc : option (ipchunk * bool)) (raw : list Z -> list cnode -> nat -> Z) (ignore parallel : bool) (get : list Z -> option ctrl).
Context (hdr : iheader -> list Z) (arr : list Z -> list Z) (fuel nf : nat).

(** Another table. tcpm.c 574, 584, 602. *)
Definition with_tab (u : @udpm unit) (t : bst mctx) : @udpm unit := mk_udpm t (u_rb u) (u_cache u) (u_open u) (u_cnt u) (u_addrs u) (u_alive u).
(** Another table and the query [c] in the receive buffer. tcpm.c 588-602. *)
Definition with_query (u : @udpm unit) (t : bst mctx) (c : mctx) : @udpm unit :=
  mk_udpm t (mk_ubuf (c_h c) (arr (h_domain (c_h c))) (c_entity c)) (u_cache u) (u_open u) (u_cnt u) (u_addrs u) (u_alive u).
(** Other contents of Entity. tcpm.c 656-668. *)
Definition with_mem (u : @udpm unit) (m : list Z) : @udpm unit := mk_udpm (u_tab u) (mk_ubuf (u_h (u_rb u)) (u_dom (u_rb u)) m) (u_cache u) (u_open u) (u_cnt u) (u_addrs u) (u_alive u).

(** m->Context.Sweep, tcpm.c 574 and 584; SweepWorks, 36-47, only advances the counter. *)
Definition t_sweep (u : @udpm unit) (now : Z) : outcome (@uev unit * @udpm unit) :=
  let! r := mc_sweep (u_tab u) now in Ret (VTimeouts (fst r), with_tab u (snd r)).

(** TcpM_Cleanup, tcpm.c 506-534: the sockets that are closed, in this order. *)
Definition t_cleanup (m : tcpm) : outcome tcpm :=
  let! l1 := pl_close_all (t_wait m) (-1) in
  let! l2 := match nproxies with
             | None => Ret []
             | Some _ => let! x := pl_close_all (q_proxy (t_q m)) (-1) in
                         let! y := fold_right (fun p acc => let! c := pl_close_all p (-1) in let! r := acc in Ret (c ++ r)) (Ret []) (q_proxies (t_q m)) in Ret (x ++ y)
             end in
  let! l3 := pl_close_all (q_query (t_q m)) (-1) in
  let! l4 := fold_right (fun p acc => let! c := pl_close_all p (-1) in let! r := acc in Ret (c ++ r)) (Ret []) (q_agents (t_q m)) in
  Ret (mk_tcpm (t_u m) (fold_left (fun k s => noted (TClose s) k) (incoming :: l1 ++ l2 ++ l3 ++ l4) (t_k m)) (t_q m) (t_wait m) (t_cum m) false).

(** What a turn of TcpM_Works, tcpm.c 560-735, meets: what recvfrom on Incoming gives (None: it fails; a header and
    a message, which TcpM_Send, 487-504, has sent), what recv meets on a connection, and the other things that
    u_handle depends on. *)
Record tin := mk_tin { i_query : option (iheader * list Z); i_net : net; i_rx : rx }.

(** The branch for Incoming, tcpm.c 579-614. *)
Definition t_incoming (m : tcpm) (a : nat) (i : tin) : outcome (list (@uev unit) * tcpm) :=
  let k := ticked (t_k m) in
  let! (es1, u1, cum1) := (if 1024 <? t_cum m then let! r := t_sweep (t_u m) (v_time v (k_tick k)) in Ret ([fst r], snd r, 0) else Ret ([], t_u m, t_cum m)) in
  let k1 := ticked k in
  let! (es2, u2, k2, q2, w2, cum2) :=
    match i_query i with
    | None => Ret ([], u1, k1, t_q m, t_wait m, cum1)
    | Some (h, bytes) =>
      let mem := u_mem (u_rb u1) in
      let c := mk_ctx h (firstn (length mem) bytes ++ skipn (length bytes) mem) in
      let! r := mc_add (u_tab u1) c (v_time v (k_tick k1)) in
      let! n := deref (snd r) (fst r) in
      let! (k3, q3, w3) := send_actual 1025 (fst r) (n_data n) None (ticked k1) (t_q m) (t_wait m) in
      Ret ([VQueued [] 0], with_query u1 (snd r) c, k3, q3, w3, cum1 + 1)
    end in
  let! w4 := pl_del tctx0 w2 incoming in
  let! d := pl_data w4 a in
  let! w5 := pl_add w4 incoming d in
  Ret (es1 ++ es2, mk_tcpm u2 k2 q2 (snd w5) cum2 true).

(** The branch for a connection, tcpm.c 617-734. *)
Definition t_reply (m : tcpm) (s : Z) (a : nat) (i : tin) : outcome (list (@uev unit) * tcpm) :=
  let k := ticked (t_k m) in
  let! w1 := pl_del tctx0 (t_wait m) s in
  let! d := pl_data w1 a in
  let u := t_u m in
  let! r := tcp_reply (S (length (u_mem (u_rb u)))) (i_net i) (u_mem (u_rb u)) in
  match r with
  | Discard retry buf =>
    let! (k2, q2, w2) :=
      match tc_msg d with
      | None => Ret (k, t_q m, w1)
      | Some x =>
        if retry && (1 <? tc_queried d) then
          let! n := deref (u_tab u) x in
          let c := n_data n in
          if negb (match h_domain (c_h c) with [] => true | _ => false end) && (tc_qid d =? ctx_id c) && (tc_hash d =? h_hash (c_h c))
          then send_actual 1025 x c (Some (tc_srv d)) k (t_q m) w1
          else Ret (k, t_q m, w1)
        else Ret (k, t_q m, w1)
      end in
    Ret ([VNothing], mk_tcpm (with_mem u buf) (noted (TClose s) k2) q2 w2 (t_cum m) true)
  | Reply buf n _ =>
    let! ags := put_at (q_agents (t_q m)) (tc_srv d) s (mk_tctx (tc_srv d) (v_time v (k_tick k)) (tc_queried d) (tc_qid d) (tc_hash d) None) in
    let! (e, u2) := u_handle ap misc raw ignore parallel get hdr arr fuel nf (with_mem u buf) buf (Z.to_nat n) (i_rx i) in
    Ret ([e], mk_tcpm u2 (noted (TGot s) (ticked k)) (mk_pools (q_query (t_q m)) ags (q_proxy (t_q m)) (q_proxies (t_q m))) w1 (t_cum m) true)
  end.

(** A turn of the loop of TcpM_Works, tcpm.c 560-735. *)
Definition t_turn (m : tcpm) (i : tin) : outcome (list (@uev unit) * tcpm) :=
  if negb (t_alive m) then Ret ([], m)
  else
    let! r := pl_select (t_wait m) (v_sel v (k_tick (t_k m))) 0 in
    match fst r with
    | None =>
      let k := ticked (t_k m) in
      if negb (snd r =? 0) then let! m' := t_cleanup (mk_tcpm (t_u m) k (t_q m) (t_wait m) (t_cum m) true) in Ret ([], m')
      else let! x := t_sweep (t_u m) (v_time v (k_tick k)) in Ret ([fst x], mk_tcpm (snd x) (ticked k) (t_q m) (t_wait m) 0 true)
    | Some (s, a) => if s =? incoming then t_incoming m a i else t_reply m s a i
    end.
(** The loop, tcpm.c 560-735. *)
Fixpoint t_run (m : tcpm) (is : list tin) : outcome (list (@uev unit) * tcpm) :=
  match is with
  | [] => Ret ([], m)
  | i :: is' => let! r := t_turn m i in let! r' := t_run (snd r) is' in Ret (fst r ++ fst r', snd r')
  end.
End Tcpm.
