(** What it is to use connections in an orderly way. *)
From Verif Require Import Base Bst_Model Mctx_Model Mctx_Spec Sock_Model Tcp_Model Tcp_Props Udpm_Model Udpm_Spec Tcpm_Model.

(** A socket that is open: the one for the callers; or a connection, directly or by way of a proxy, to a server (None: the proxy does not know yet), with or
    without a query that is not answered yet. *)
Inductive conn := Listening | Conn (via srv : option nat) (busy : bool).

(** The state of the socket [s] after the events [log], the newest first. None: not open. *)
Fixpoint state_of (log : list tev) (s : Z) : option conn :=
  match log with
  | [] => None
  | e :: l =>
    match e with
    | TListen x => if x =? s then Some Listening else state_of l s
    | TOpen x proxy i => if x =? s then Some (if proxy then Conn (Some i) None false else Conn None (Some i) false) else state_of l s
    | TPrep x i _ => if x =? s then match state_of l s with Some (Conn v _ b) => Some (Conn v (Some i) b) | o => o end else state_of l s
    | TSent x _ _ _ => if x =? s then match state_of l s with Some (Conn v i _) => Some (Conn v i true) | o => o end else state_of l s
    | TGot x => if x =? s then match state_of l s with Some (Conn v i _) => Some (Conn v i false) | o => o end else state_of l s
    | TClose x => if x =? s then None else state_of l s
    end
  end.

(** What may be done: open what is not open; tell a proxy once which server; send on a connection to a server on which no query is pending; receive where
    one is; close what is open. *)
Definition legal (log : list tev) (e : tev) : Prop :=
  match e with
  | TListen s | TOpen s _ _ => state_of log s = None
  | TPrep s _ _ => exists j, state_of log s = Some (Conn (Some j) None false)
  | TSent s _ _ _ => exists via i, state_of log s = Some (Conn via (Some i) false)
  | TGot s => exists via i, state_of log s = Some (Conn via (Some i) true)
  | TClose s => state_of log s <> None
  end.
Fixpoint lawful (log : list tev) : Prop := match log with [] => True | e :: l => legal l e /\ lawful l end.

(** The servers that the queries were sent to, the last one first (None: a socket that is no connection to a server), and that all of the queries are [msg]. *)
Fixpoint sent_to (log : list tev) : list (option nat) :=
  match log with
  | [] => []
  | TSent s _ _ _ :: l => match state_of l s with Some (Conn _ i _) => i | _ => None end :: sent_to l
  | _ :: l => sent_to l
  end.
Definition only_sends (msg : list Z) (log : list tev) : Prop := forall s m out ok, In (TSent s m out ok) log -> m = msg.

(** The last message that was sent on the socket [s]. *)
Fixpoint last_sent (log : list tev) (s : Z) : option (list Z) :=
  match log with
  | [] => None
  | TSent x msg _ _ :: l => if x =? s then Some msg else last_sent l s
  | _ :: l => last_sent l s
  end.

(** select returns some day. *)
Definition select_ends (rs : list selret) : Prop :=
  exists es r rest, rs = map SelErr es ++ r :: rest /\ Forall (fun e => fatal_error e = false) es /\ (forall e, r = SelErr e -> fatal_error e = true).

(** What the kernel and the C library guarantee: select ends; a new socket is one that is not open, and below 1024; rand is not negative.  That
    it stays so far below INT_MAX that the index can be added is not guaranteed, but as good as certain. *)
Definition env_ok (v : tenv) (nservers : nat) (nproxies : option nat) : Prop :=
  (forall t, select_ends (v_sel v t)) /\ (forall t log s, v_conn v t log = Some s -> 0 <= s < 1024 /\ state_of log s = None) /\
  (forall t, 0 <= v_rand v t /\ v_rand v t + Z.of_nat nservers <= 2147483648 /\ forall np, nproxies = Some np -> v_rand v t + Z.of_nat np <= 2147483648).

(** The queries that come from the callers have a hash of 32 bits, the length of the message, and a message of bytes with at least id and flags that the
    receive buffer has room for. *)
Definition tin_ok (room : nat) (i : tin) : Prop :=
  (forall h bytes, i_query i = Some (h, bytes) -> 0 <= h_hash h < 4294967296 /\ h_len h = Z.of_nat (length bytes) /\ (4 <= length bytes <= room)%nat /\ Forall is_byte bytes) /\ net_ok (i_net i).

(** What a turn may send: nothing; the query that came from a caller, to one server, or to as many as there are; or, when a connection that was in use has ended
    without a reply, a query with the id of the one that was sent on it, to one server. *)
Definition turn_log (nservers : nat) (par : bool) (i : tin) (log log' : list tev) : Prop :=
  exists l ss msg, log' = l ++ log /\ sent_to log' = ss ++ sent_to log /\ only_sends msg l /\ (forall o, In o ss -> exists j, o = Some j /\ (j < nservers)%nat) /\
    (ss = [] \/
     (exists h bytes, i_query i = Some (h, bytes) /\ msg = framed bytes /\ (length ss <= if par then nservers else 1)%nat) \/
     (exists s via j old id, state_of log s = Some (Conn via (Some j) true) /\ last_sent log s = Some old /\ get16 old 2 = Some id /\ get16 msg 2 = Some id /\
        hd_error l = Some (TClose s) /\ stream (i_net i) = [] /\ (length ss <= 1)%nat)).

(** The number of queries that were taken in. *)
Fixpoint queued {A} (es : list (@uev A)) : nat := match es with [] => 0 | VQueued _ _ :: es' => S (queued es') | _ :: es' => queued es' end.

(** The module as TcpM_Init leaves it and TcpM_Works begins: the socket for the callers is watched, there are no connections and nothing is pending. *)
Definition t_started (nservers : nat) (nproxies : option nat) (incoming : Z) (room : nat) (m : tcpm) : Prop :=
  k_log (t_k m) = [TListen incoming] /\ 0 <= incoming < 1024 /\
  t_q m = mk_pools pl_init (repeat pl_init nservers) pl_init (repeat pl_init (match nproxies with None => 0 | Some np => np end)) /\
  pl_add pl_init incoming tctx0 = Ret (0, t_wait m) /\ t_alive m = true /\ u_started room (t_u m).

(** The sets of sockets that are in use. *)
Definition all_pools (nproxies : option nat) (m : tcpm) : list (puller tctx) :=
  t_wait m :: q_query (t_q m) :: q_agents (t_q m) ++ match nproxies with None => [] | Some _ => q_proxy (t_q m) :: q_proxies (t_q m) end.

(** [chosen] are some of [is], in the same order. *)
Inductive among {X} : list X -> list X -> Prop :=
| A_nil : among [] []
| A_take x l l' : among l l' -> among (x :: l) (x :: l')
| A_skip x l l' : among l l' -> among l (x :: l').
(** The query [q] is the one that comes with [i]. *)
Definition comes_with (i : tin) (q : mctx) : Prop :=
  exists h bytes e now, i_query i = Some (h, bytes) /\ q = stamped (mk_ctx h e) now /\ firstn (length bytes) e = bytes.

(** From now on all goes well: there are no proxies, all of the sockets are ready, and all of the message is sent at each attempt. *)
Definition fair (nproxies : option nat) (v : tenv) (k : kst) (msg : list Z) : Prop :=
  nproxies = None /\ (forall t, (k_tick k <= t)%nat -> v_sel v t = [SelReady (fun _ => true)]) /\ forall t, send_wrapper (v_send v t) msg = (true, msg).
(** Between [k] and [k'], there was an attempt to connect that failed. *)
Definition no_conn (v : tenv) (k k' : kst) : Prop :=
  exists t l x y, (k_tick k <= t <= k_tick k')%nat /\ k_log k' = x ++ l /\ l = y ++ k_log k /\ v_conn v t l = None.

(** What the module does at the end: the sockets that are open are closed, each once, after one more close of the one for the callers. *)
Definition ended (incoming : Z) (log' : list tev) : Prop :=
  exists log L, log' = rev (map TClose (incoming :: L)) ++ log /\ lawful log /\ state_of log incoming = Some Listening /\ NoDup L /\ forall s, In s L <-> state_of log s <> None.

(** There is a connection [s] to a server on which a reply is awaited. *)
Definition busy (log : list tev) (s : Z) : Prop := exists via j, state_of log s = Some (Conn via (Some j) true).
(** Of the sockets that are waited for, [s], and no other, has something to read. *)
Definition wakes (v : tenv) (incoming : Z) (k : kst) (s : Z) : Prop :=
  exists r, v_sel v (k_tick k) = [SelReady r] /\ r s = true /\ (s = incoming \/ busy (k_log k) s) /\ forall x, x = incoming \/ busy (k_log k) x -> r x = true -> x = s.
(** The connection has the message [msg] to read, in one segment or with its length in a segment of its own. *)
Definition in_one_piece (c : net) (msg : list Z) : Prop :=
  exists x more, segs c = (framed msg ++ x) :: more \/ segs c = be16 (Z.of_nat (length msg)) :: (msg ++ x) :: more.
(** At no time do the hash values of the pending queries, and of the next one, wrap. *)
Definition tame_run (run : list tin -> outcome (list (@uev unit) * tcpm)) (is : list tin) : Prop :=
  forall is1 j is2 es1 m1 p1 qs, is = is1 ++ j :: is2 -> run is1 = Ret (es1, m1) -> table (u_tab (t_u m1)) p1 -> qs = [] \/ (exists q, qs = [q] /\ comes_with j q) -> tame (p1 ++ qs).
