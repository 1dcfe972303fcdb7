(** Model of the sets of sockets with data: socketpool.c and socketpuller.c. *)
From Verif Require Import Base Bst_Model.

(** struct _SocketUnit, socketpool.h 9 and 15: a socket followed by the data of its user. *)
Record sunit (D : Type) := mk_unit { su_sock : Z; su_data : D }.
Arguments mk_unit {D}. Arguments su_sock {D}. Arguments su_data {D}.

(** The first lines of SocketPool_Add, socketpool.c 11-25, on the data part [mem] of the SocketUnit buffer: the copy of the user's
    data and the memset after it.  The length of [mem] is sp->DataLength - sizeof(SOCKET); [None]: -120 is returned (a negative length becomes
    a large size_t).  memset is given s + 1 + DataLength, where s is a SOCKET pointer: 4 * DataLength bytes into the data. *)
Definition unit_fill (mem : list Z) (data : option (list Z)) (dl : Z) : outcome (option (list Z)) :=
  if (dl <? 0) || (Z.of_nat (length mem) <? dl) then Ret None
  else
    let n := Z.to_nat dl in
    let! m1 := match data with
               | None => Ret mem
               | Some d => match slice d 0 n with
                           | None => UBR
                           | Some x => match write mem 0 x with None => UBW | Some m => Ret m end
                           end
               end in
    if Nat.eqb n (length mem) then Ret (Some m1)
    else match write m1 (4 * n) (repeat 0 (length mem - n)) with None => UBW | Some m => Ret (Some m) end.

(** FatalErrorDecideding, utils.c 1054-1069 (EINTR 4, EAGAIN 11, EINPROGRESS 115): whether an error is fatal. *)
Definition fatal_error (e : Z) : bool := negb ((e =? 4) || (e =? 11) || (e =? 115)).

(** What select(2) returns, socketpuller.c 55-79: an error, 0, or a number of sockets, which are then those of the set that are ready. *)
Inductive selret := SelErr (e : Z) | SelTimeout | SelReady (r : Z -> bool).

Section Puller.
Context {D : Type} (zero : D).

(** Compare, socketpool.c 124-127; sockets are not negative, the difference does not overflow. *)
Definition sock_cmp (a b : sunit D) : Z := su_sock a - su_sock b.

(** struct _SocketPuller, socketpuller.h 10-36: the pool, the set for select and the largest socket. *)
Record puller := mk_puller { p_tree : bst (sunit D); p_set : Z -> bool; p_max : Z }.

(** SocketPuller_Init, socketpuller.c 108-121, and SocketPool_Init, socketpool.c 129-157 (no allocation failure). *)
Definition pl_init : puller := mk_puller bst_init (fun _ => false) (-1).

(** FD_SET and FD_CLR, as in socketpuller.c 24 and 36: an fd_set has room for 1024 sockets. *)
Definition fd_put (f : Z -> bool) (s : Z) (v : bool) : outcome (Z -> bool) :=
  if (0 <=? s) && (s <? 1024) then Ret (fun x => if x =? s then v else f x) else UBW.

(** SocketPuller_Add, socketpuller.c 3-27, with SocketPool_Add, socketpool.c 5-32, once the unit is filled with [d] (see unit_fill); no
    allocation failure. *)
Definition pl_add (p : puller) (s : Z) (d : D) : outcome (Z * puller) :=
  if s =? -1 then Ret (-11, p)
  else
    let! r := bst_add sock_cmp (p_tree p) (mk_unit s d) in
    let! f := fd_put (p_set p) s true in
    Ret (0, mk_puller (snd r) f (if p_max p <? s then s else p_max p)).

(** SocketPuller_Del, socketpuller.c 29-39, with SocketPool_Del, socketpool.c 34-45. *)
Definition pl_del (p : puller) (s : Z) : outcome puller :=
  let! r := bst_search sock_cmp (p_tree p) (mk_unit s zero) None in
  let! t := match r with None => Ret (p_tree p) | Some a => bst_delete (p_tree p) a end in
  let! f := fd_put (p_set p) s false in
  Ret (mk_puller t f (p_max p)).

(** SocketPool_Fetch_Inner, socketpool.c 54-73: the socket and where its unit is; stop at the first that is ready. *)
Definition fetch_inner (ready : Z -> bool) (acc : option (Z * nat)) (a : nat) (u : sunit D) : option (Z * nat) * bool :=
  if ready (su_sock u) then (Some (su_sock u, a), true) else (acc, false).
(** SocketPool_FetchOnSet, socketpool.c 75-88. *)
Definition pl_fetch (p : puller) (ready : Z -> bool) : outcome (option (Z * nat)) := bst_enum (p_tree p) (fetch_inner ready) None.

(** SocketPuller_Select, socketpuller.c 41-91: the socket (None: INVALID_SOCKET) with the address of its unit, and what is stored in
    err.  [rs]: what the calls of select return. *)
Fixpoint pl_select (p : puller) (rs : list selret) (err : Z) : outcome (option (Z * nat) * Z) :=
  match rs with
  | [] => Fuel
  | SelErr e :: rs' => if fatal_error e then Ret (None, e) else pl_select p rs' e
  | SelTimeout :: _ => Ret (None, err)
  | SelReady r :: _ => let! o := pl_fetch p r in Ret (o, err)
  end.
(** The sockets that select looks at, socketpuller.c 53-60: those of the set below Max + 1. *)
Definition watched (p : puller) (s : Z) : Prop := p_set p s = true /\ 0 <= s <= p_max p.

(** The data that Select gives a pointer to, socketpool.c 66-69. *)
Definition pl_data (p : puller) (a : nat) : outcome D := let! n := deref (p_tree p) a in Ret (su_data (n_data n)).

(** SocketPool_CloseAll_Inner, socketpool.c 90-103: the sockets closed so far. *)
Definition close_inner (except : Z) (acc : list Z) (a : nat) (u : sunit D) : list Z * bool :=
  (if negb (su_sock u =? -1) && negb (su_sock u =? except) then acc ++ [su_sock u] else acc, false).
(** SocketPool_CloseAll, socketpool.c 105-111, which SocketPool_Free 113-122 calls with INVALID_SOCKET: the sockets that are closed. *)
Definition pl_close_all (p : puller) (except : Z) : outcome (list Z) := bst_enum (p_tree p) (close_inner except) [].
End Puller.
Arguments puller D : clear implicits.
