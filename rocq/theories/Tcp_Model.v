(** Model of the use of TCP connections: tcpm.c (receiving replies, sending queries, the SOCKS 5 negotiation) and tcpfrontend.c
    (receiving queries).

    The connection is the list of what recv will meet: segments of data, moments without data, the end or an error.  Which
    segments arrive when is arbitrary: it is the parameter of all functions here. *)
From Verif Require Import Base Hash_Model.

(** The outcomes of recv(2) and send(2) that tcpm.c 247-285 and tcpfrontend.c 16-135 tell apart. *)
Inductive ev :=
| Seg (l : list Z)   (* data that is there; recv returns at most the number of bytes asked for and leaves the others *)
| Again              (* nothing there yet (EAGAIN, EINTR or EINPROGRESS), but more will be there in time *)
| Closed             (* the peer has closed: recv returns 0 *)
| Failed (e : positive). (* recv fails with errno e, for good: a fatal error, or nothing came within the time limit *)
(** tcpm.c 247-285. *)
Notation net := (list ev).

(** What recv leaves of a segment. tcpm.c 267-285. *)
Definition rest_of (l : list Z) (n : nat) (net' : net) : net :=
  match skipn n l with [] => net' | l' => Seg l' :: net' end.

(** TcpM_RecvWrapper, tcpm.c 267-285: the return value, the bytes stored, what is left.  When nothing will ever come the wait
    times out with errno EAGAIN. *)
Fixpoint recv_wrapper (c : net) (n : nat) : Z * list Z * net :=
  match c with
  | [] => (-11, [], [])
  | Again :: c' => recv_wrapper c' n
  | Closed :: _ => (0, [], c)
  | Failed e :: c' => (Z.neg e, [], c')
  | Seg l :: c' => (Z.of_nat (length (firstn n l)), firstn n l, rest_of l n c')
  end.

(** Assignment to a uint16_t, tcpm.c 622-685. *)
Definition u16 (v : Z) : Z := v mod 65536.

(** The loop of TcpM_Works, tcpm.c 656-662: Entity and PartialData - Entity, TCPLength (a uint16_t). *)
Fixpoint reply_loop (fuel : nat) (c : net) (buf : list Z) (pos : Z) (len : Z) : outcome (list Z * Z * Z * Z * net) :=
  match fuel with
  | O => Fuel
  | S fuel' =>
    let '(st, d, c') := recv_wrapper c (Z.to_nat len) in
    match write buf (Z.to_nat pos) d with
    | None => UBW
    | Some buf' =>
      let pos' := pos + st in
      let len' := u16 (len - st) in
      if (0 <? st) && (0 <? len') then reply_loop fuel' c' buf' pos' len' else Ret (buf', pos', len', st, c')
    end
  end.

(** TcpM_Works, tcpm.c 622-685: one reply.  [Reply buf n c]: IHeader_Fill is called on [buf] with EntityLength [n] and the
    connection [c] is kept.  [Discard b buf]: the connection is closed; [b]: the query may be tried again (627-638); [buf]: what is in the buffer. *)
Inductive reply := Reply (buf : list Z) (n : Z) (c : net) | Discard (retry : bool) (buf : list Z).
(** The reading of a reply in TcpM_Works, tcpm.c 622-685. *)
Definition tcp_reply (fuel : nat) (c : net) (buf : list Z) : outcome reply :=
  let '(st, d, c1) := recv_wrapper c 2 in
  if negb (st =? 2) then Ret (Discard (st <? 1) buf)
  else
    let len := from16 d in
    if Z.of_nat (length buf) <? len then Ret (Discard false buf)
    else
      let! (buf', _, len', st', c2) := reply_loop fuel c1 buf 0 len in
      if negb (len' =? 0) then Ret (Discard false buf') else Ret (Reply buf' st' c2).

(** TcpFrontend_Work, tcpfrontend.c 85-131, on a (blocking) connection of a client: one query.  recv waits until there is
    something; [Query buf n c]: the query goes to MMgr_Send and the connection is kept. *)
Fixpoint recv_block (c : net) (n : nat) : Z * list Z * net :=
  match c with
  | [] => (-1, [], [])
  | Again :: c' => recv_block c' n
  | Closed :: _ => (0, [], c)
  | Failed _ :: c' => (-1, [], c')
  | Seg l :: c' => (Z.of_nat (length (firstn n l)), firstn n l, rest_of l n c')
  end.
(** What the TCP front end has read, tcpfrontend.c 85-131. *)
Inductive query := Query (buf : list Z) (n : Z) (c : net) | NoQuery.
(** The reading of a query in TcpFrontend_Work, tcpfrontend.c 85-131. *)
Definition tcp_query (c : net) (buf : list Z) : outcome query :=
  let '(st, d, c1) := recv_block c 2 in
  if st =? 2 then
    let len := from16 d in
    if len <=? Z.of_nat (length buf) then
      let '(st2, d2, c2) := recv_block c1 (Z.to_nat len) in
      match write buf 0 d2 with
      | None => UBW
      | Some buf' => if st2 =? len then Ret (Query buf' st2 c2) else Ret NoQuery
      end
    else Ret NoQuery
  else Ret NoQuery.

(** What send does: it accepts some of the bytes (fewer than all if the socket's buffer is full), or none. [more]: the
    condition at tcpm.c 254-257 lets the loop go on. *)
Record attempt := mk_attempt { a_accepted : nat; a_more : bool }.

(** TcpM_SendWrapper, tcpm.c 247-265: whether it returns Length, and the bytes that went out. *)
Fixpoint send_wrapper (l : list attempt) (msg : list Z) : bool * list Z :=
  match l with
  | [] => (false, [])
  | a :: l' =>
    let out := firstn (a_accepted a) msg in
    if Nat.eqb (length out) (length msg) then (true, out)
    else if a_more a then let (ok, out') := send_wrapper l' msg in (ok, out ++ out') else (false, out)
  end.

(** TcpM_Send_Actual, tcpm.c 395-398 and 458-470: the message with its length in front. *)
Definition tcp_send (l : list attempt) (msg : list Z) : bool * list Z :=
  send_wrapper l (be16 (Z.of_nat (length msg)) ++ msg).

(** MsgContext_SendBack to a TCP client, iheader.c 165-182: a single send. *)
Definition tcp_send_back (accepted : nat) (msg : list Z) : bool * list Z :=
  let m := be16 (Z.of_nat (length msg)) ++ msg in
  (Nat.eqb (length (firstn accepted m)) (length m), firstn accepted m).

(** ClearTCPSocketBuffer, utils.c 1243-1264, on the non-blocking socket: recv without waiting; stops at the first moment
    without data. *)
Fixpoint clear_loop (fuel : nat) (c : net) (len : Z) : outcome net :=
  if len <=? 0 then Ret c
  else
    match fuel with
    | O => Fuel
    | S fuel' =>
      match c with
      | Seg l :: c' =>
        let n := Z.to_nat (if 128 <? len then 128 else len) in
        let u := Z.of_nat (length (firstn n l)) in
        if u <=? 0 then Ret (rest_of l n c') else clear_loop fuel' (rest_of l n c') (len - u)
      | _ => Ret c
      end
    end.

(** A char: -128..127. *)
Definition schar (v : Z) : Z := (v + 128) mod 256 - 128.

(** TcpM_ProxyPreparation, tcpm.c 287-385.  [addr]: the text of the server's address, [port]: its two bytes as they are in
    memory.  [sends1], [sends2]: what happens to the two sends.  When the length of the bound address does
    not come (367), NumberOfCharacter still is the length of the server's.  The result: success, the bytes sent, what is left of the
    connection. *)
Definition proxy_preparation (sends1 sends2 : list attempt) (c : net) (addr port : list Z) : outcome (bool * list Z * net) :=
  let (ok1, out1) := send_wrapper sends1 [5; 1; 0] in
  if negb ok1 then Ret (false, out1, c)
  else
    let '(st1, d1, c1) := recv_wrapper c 2 in
    if negb (st1 =? 2) then Ret (false, out1, c1)
    else if negb (nth 0 d1 0 =? 5) || negb (nth 1 d1 0 =? 0) then Ret (false, out1, c1)
    else
      let n := Z.of_nat (length addr) in
      let (ok2, out2) := send_wrapper sends2 ([5; 1; 0; 3] ++ [n] ++ addr ++ port) in
      if negb ok2 then Ret (false, out1 ++ out2, c1)
      else
        let '(st2, d2, c2) := recv_wrapper c1 4 in
        if negb (st2 =? 4) then Ret (false, out1 ++ out2, c2)
        else if negb (nth 1 d2 0 =? 0) then Ret (false, out1 ++ out2, c2)
        else
          let skip (k : Z) (c3 : net) : outcome (bool * list Z * net) :=
            let! c4 := clear_loop (S (Z.to_nat k)) c3 k in Ret (true, out1 ++ out2, c4) in
          if nth 3 d2 0 =? 1 then skip 6 c2
          else if nth 3 d2 0 =? 3 then
            let '(st3, d3, c3) := recv_wrapper c2 1 in
            skip (schar (match d3 with b :: _ => b | [] => n end + 2)) c3
          else if nth 3 d2 0 =? 4 then skip 18 c2
          else Ret (false, out1 ++ out2, c2).
