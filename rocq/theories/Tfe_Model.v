(** Model of the connections of the TCP front end (tcpfrontend.c 31-137) and of the replies sent on them (iheader.c 165-182). *)
From Verif Require Import Base Hash_Model Bst_Model Sock_Model Tcp_Model.

(** What a turn of TcpFrontend_Work makes of a connection, tcpfrontend.c 85-131: a query for MMgr_Send; bad data (the socket is closed); or recv has
    returned 0 or an error. *)
Inductive front := FQuery (buf : list Z) (n : Z) | FBad | FGone.
(** tcpfrontend.c 85-131 on the (blocking) connection [c], with the buffer [buf] (Entity). *)
Definition tcp_front (c : net) (buf : list Z) : outcome front :=
  let '(st, d, c1) := recv_block c 2 in
  if st =? 2 then
    let len := from16 d in
    if len <=? Z.of_nat (length buf) then
      let '(st2, d2, _) := recv_block c1 (Z.to_nat len) in
      match write buf 0 d2 with
      | None => UBW
      | Some buf' => if st2 =? len then Ret (FQuery buf' st2) else Ret FBad
      end
    else Ret FBad
  else if st =? 1 then Ret FBad
  else Ret FGone.

(** The front end with the sockets the kernel has open for it.  [f_pool]: Frontend, tcpfrontend.c 10; its data, an Address_Type, is kept as whether the
    socket is a listening one (sa_family is AF_UNSPEC, 217-219 and 57).  [f_open]: which connection each accepted socket that has not been closed belongs to;
    [f_next]: the number of the next connection. *)
Record tfe := mk_tfe { f_pool : puller bool; f_open : list (Z * nat); f_next : nat }.

(** What the outside sees, tcpfrontend.c 46-131 and iheader.c 165-182: a query that came on the socket [s] of connection [k] and is answered to [s]; the socket
    closed; the socket left alone although its connection is over; a reply sent on a connection (None: the socket is not open); nothing; the end of the thread. *)
Inductive fevent :=
| EQuery (s : Z) (k : nat) (buf : list Z) (n : Z) | EClosed (s : Z) (k : nat) | EGone (s : Z) (k : nat) | EReply (k : option nat) (bytes : list Z) | ENothing | EFatal.

(** The connection an open socket belongs to: the kernel's table. tcpfrontend.c 59 and 120-124. *)
Definition owner (o : list (Z * nat)) (s : Z) : option nat := option_map snd (find (fun x => fst x =? s) o).
(** close(s), as in tcpfrontend.c 120 and 124. *)
Definition closed (o : list (Z * nat)) (s : Z) : list (Z * nat) := filter (fun x => negb (fst x =? s)) o.

(** From the recv on, tcpfrontend.c 85-131; [new]: IsNewConnected. *)
Definition front_rest (f : tfe) (s : Z) (new : bool) (c : net) (buf : list Z) : outcome (fevent * tfe) :=
  match owner (f_open f) s with
  | None => Ret (ENothing, f) (* recv on a descriptor that is not open fails *)
  | Some k =>
    let! r := tcp_front c buf in
    match r with
    | FQuery buf' n =>
      if new then let! p := pl_add (f_pool f) s false in Ret (EQuery s k buf' n, mk_tfe (snd p) (f_open f) (f_next f))
      else Ret (EQuery s k buf' n, f)
    | FBad =>
      let! p := if new then Ret (f_pool f) else pl_del false (f_pool f) s in
      Ret (EClosed s k, mk_tfe p (closed (f_open f) s) (f_next f))
    | FGone =>
      let! p := if new then Ret (f_pool f) else pl_del false (f_pool f) s in
      Ret (EGone s k, mk_tfe p (f_open f) (f_next f))
    end
  end.

(** A turn of TcpFrontend_Work, tcpfrontend.c 46-131; [rs]: what select returns; [acc]: what accept returns (None: it fails); [c]: what recv will
    meet on the connection of this turn.  After EFatal the loop is left (not modelled: the turn can be taken again). *)
Definition front_turn (f : tfe) (rs : list selret) (acc : option Z) (c : net) (buf : list Z) : outcome (fevent * tfe) :=
  let! r := pl_select (f_pool f) rs 0 in
  match fst r with
  | None => Ret (EFatal, f)
  | Some (s, a) =>
    let! listening := pl_data (f_pool f) a in
    if (listening : bool)
    then match acc with
         | None => Ret (ENothing, f)
         | Some s' => front_rest (mk_tfe (f_pool f) ((s', f_next f) :: f_open f) (S (f_next f))) s' true c buf
         end
    else front_rest f s false c buf
  end.

(** MsgContext_SendBack to a TCP client, iheader.c 165-182: send on the descriptor that the query came on; [n] bytes are taken. *)
Definition front_reply (f : tfe) (s : Z) (n : nat) (msg : list Z) : fevent :=
  match owner (f_open f) s with None => EReply None [] | Some k => EReply (Some k) (snd (tcp_send_back n msg)) end.

(** A history: turns of the front end and replies of other threads. tcpfrontend.c 46-131, iheader.c 165-182. *)
Inductive fop := FTurn (rs : list selret) (acc : option Z) (c : net) (buf : list Z) | FReply (s : Z) (n : nat) (msg : list Z).
(** One step of it. tcpfrontend.c 46-131, iheader.c 165-182. *)
Definition front_step (f : tfe) (o : fop) : outcome (fevent * tfe) :=
  match o with
  | FTurn rs acc c buf => front_turn f rs acc c buf
  | FReply s n msg => Ret (front_reply f s n msg, f)
  end.
(** All of it. tcpfrontend.c 46-131, iheader.c 165-182. *)
Fixpoint front_run (f : tfe) (os : list fop) : outcome (list fevent * tfe) :=
  match os with
  | [] => Ret ([], f)
  | o :: os' => let! r := front_step f o in let! r' := front_run (snd r) os' in Ret (fst r :: fst r', snd r')
  end.
