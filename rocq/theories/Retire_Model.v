(** Model of the life of the server groups of one load: they are started one by one, published, used by queries, replaced by a later load, stopped and freed
    (mmgr.c 96-200, 510-731, udpm.c 12-67, 93-254, 262-335, 337-425, tcpm.c 490-536, 538-740).

    Threads: the loading thread, for every UDP group a worker and a sweeper, for every TCP group a worker, any number of query threads, and the cleaning thread
    that the replacement starts.  A step is one access to the shared variables of a group, or one turn of a loop (all that is done in it touches the same
    things).  Sequentially consistent; [event] is the choice of the scheduler.  How the map is found under the lock is C47. *)
From Verif Require Import Base.

(** Where a worker is: at the test of IsServer, in a turn, at the three parts of its cleanup, over. udpm.c 93-254 with 54-67, tcpm.c 556-740 with 506-536.  The single frees within a part are in Tmem_Model. *)
Inductive wpc := WHead | WTurn | WStop | WFree | WUnset | WEnd.
(** Where a sweeper is: at the two parts of its test, in a turn, at the freeing, at the clearing of its handle, over. udpm.c 38-52. *)
Inductive spc := SHead | SHead2 | STurn | SFree | SUnset | SEnd.
(** A group, udpm.h 11-37, tcpm.h 12-48: [m_named]: the text of ServiceName is still there; IsServer; the threads; whether WorkThread and SweepThread are set; whether the
    addresses and the table of pending queries (for UDP with its lock) are there. *)
Record md := mk_md { m_udp : bool; m_named : bool; m_isrv : bool; m_wk : wpc; m_sw : spc; m_wh : bool; m_sh : bool; m_addrs : bool; m_ctx : bool }.
(** UdpM_Init 398-415, TcpM_Init 886-897: a group that has been started.  [file]: it comes from a group file, whose strings are freed (mmgr.c 505-506); they are taken as freed at once. *)
Definition new_md (udp file : bool) : md := mk_md udp (negb file) true WHead (if udp then SHead else SEnd) true udp true true.

(** Where the cleaning thread is, Modules_SafeCleanup, mmgr.c 602-653: at the beginning, at IsServer, WorkThread, SweepThread of the i-th group (with InUse), asleep, before Modules_Free. *)
Inductive cpc := CNew | CSet (i : nat) (u : bool) | CWork (i : nat) (u : bool) | CSweep (i : nat) (u : bool) | CPause | CFree.
(** The groups are being loaded, are the current ones, have been replaced, are freed. mmgr.c 655-731. *)
Inductive phase := PBuild | PCur | POld (c : cpc) | PGone.
(** The groups, and the query threads with the group each is sending to. mmgr.c 818-877. *)
Record st := mk_st { s_phase : phase; s_mods : list md; s_qs : list (option nat) }.
(** The start of a load with [n] query threads, mmgr.c 655-703. *)
Definition st0 (n : nat) : st := mk_st PBuild [] (repeat None n).

(** What happens in a turn of a worker: something ordinary, an error that is reported with the name of the server (udpm.c 185, tcpm.c 190), a fatal error that ends the loop (udpm.c 112, 126, tcpm.c 567). *)
Inductive how := Ordinary | Report | Fatal.
(** The choices of the scheduler. mmgr.c 510-731, 818-877, udpm.c, tcpm.c as above. *)
Inductive event := EStart (udp file : bool) | EPublish | EFail | EWork (i : nat) (h : how) | ESweep (i : nat) | EBegin (q i : nat) | ESend (q : nat) | EReplace | EClean.
(** What can be observed. mmgr.c 510-877, udpm.c 12-425, tcpm.c 490-740. *)
Inductive act := Start (udp file : bool) | Publish | Fail | Turn (i : nat) | Reports (i : nat) | GiveUp (udp : bool) (i : nat) | Release (i : nat) | Send (i : nat) | Replace | Order (i : nat) | Drop | Tau.
(** An action, and whether everything it touches is there. mmgr.c 510-877, udpm.c 12-425, tcpm.c 490-740. *)
Definition label := (act * bool)%type.

(** A step of the worker of the i-th group: the action, whether what it touches beside the group itself is there, the group.  UdpM_Works 93-254 and UdpM_Cleanup 54-67, TcpM_Works 556-740 and TcpM_Cleanup 506-536. *)
Definition work (i : nat) (h : how) (m : md) : option (act * bool * md) :=
  let go w := mk_md (m_udp m) (m_named m) (m_isrv m) w (m_sw m) (m_wh m) (m_sh m) (m_addrs m) (m_ctx m) in
  match m_wk m with
  | WHead => Some (Tau, true, go (if m_isrv m then WTurn else WStop))
  | WTurn => match h with
             | Ordinary => Some (Turn i, m_addrs m && m_ctx m, go WHead)
             | Report => Some (Reports i, m_addrs m && m_ctx m && m_named m, go WHead)
             | Fatal => Some (GiveUp (m_udp m) i, m_addrs m && m_ctx m, go WStop)
             end
  | WStop => Some (Tau, true, mk_md (m_udp m) (m_named m) false WFree (m_sw m) (m_wh m) (m_sh m) (m_addrs m) (m_ctx m))
  | WFree => Some (Release i, m_addrs m && (m_udp m || m_ctx m), mk_md (m_udp m) (m_named m) (m_isrv m) WUnset (m_sw m) (m_wh m) (m_sh m) false (m_udp m && m_ctx m))
  | WUnset => Some (Tau, true, mk_md (m_udp m) (m_named m) (m_isrv m) WEnd (m_sw m) false (m_sh m) (m_addrs m) (m_ctx m))
  | WEnd => None
  end.
(** A step of the sweeper of the i-th group, UdpM_Sweep_Thread 38-52; the callback (udpm.c 11-24) touches nothing of the addresses but a counter in the group. *)
Definition sweep (i : nat) (m : md) : option (act * bool * md) :=
  let go w := mk_md (m_udp m) (m_named m) (m_isrv m) (m_wk m) w (m_wh m) (m_sh m) (m_addrs m) (m_ctx m) in
  match m_sw m with
  | SHead => Some (Tau, true, go (if m_isrv m then STurn else SHead2))
  | SHead2 => Some (Tau, true, go (if m_wh m then STurn else SFree))
  | STurn => Some (Tau, m_ctx m, go SHead)
  | SFree => Some (Release i, m_ctx m, mk_md (m_udp m) (m_named m) (m_isrv m) (m_wk m) SUnset (m_wh m) (m_sh m) (m_addrs m) false)
  | SUnset => Some (Tau, true, mk_md (m_udp m) (m_named m) (m_isrv m) (m_wk m) SEnd (m_wh m) false (m_addrs m) (m_ctx m))
  | SEnd => None
  end.
(** Assignment to one element: the i-th group, mmgr.c 602-653, or the q-th query thread, mmgr.c 818-877. *)
Definition put {A} (l : list A) (i : nat) (x : A) : list A := firstn i l ++ x :: skipn (S i) l.
(** A step of the cleaning thread, Modules_SafeCleanup, mmgr.c 602-653. *)
Definition clean (c : cpc) (ms : list md) : cpc * list md :=
  match c with
  | CNew => (CSet 0 false, ms)
  | CSet i u => match nth_error ms i with
                | None => (if u then CPause else CFree, ms)
                | Some m => (CWork i u, put ms i (mk_md (m_udp m) (m_named m) false (m_wk m) (m_sw m) (m_wh m) (m_sh m) (m_addrs m) (m_ctx m)))
                end
  | CWork i u => match nth_error ms i with
                 | None => (c, ms)
                 | Some m => (if m_udp m then CSweep i (u || m_wh m) else CSet (S i) (u || m_wh m), ms)
                 end
  | CSweep i u => match nth_error ms i with None => (c, ms) | Some m => (CSet (S i) (u || m_sh m), ms) end
  | CPause => (CSet 0 false, ms)
  | CFree => (c, ms)
  end.
(** Whether the memory of the groups is there. mmgr.c 578-600. *)
Definition alive (p : phase) : bool := match p with PGone => false | _ => true end.
(** No query thread holds the lock. mmgr.c 715, 846-874. *)
Definition idle (qs : list (option nat)) : bool := forallb (fun o => match o with None => true | Some _ => false end) qs.

(** One step; [None]: not possible. EStart: Udp_Init_Core 96-150, Tcp_Init_Core 183-245; EPublish and EFail: Modules_Load 703-731; EBegin: behind RWLock_RdLock, mmgr.c 846; ESend: UdpM_Send
    262-335, TcpM_Send 488-504, and the release of the lock; EReplace: a later Modules_Load 715-720. *)
Definition step (s : st) (e : event) : option (label * st) :=
  match e with
  | EStart udp file => match s_phase s with PBuild => Some ((Start udp file, true), mk_st PBuild (s_mods s ++ [new_md udp file]) (s_qs s)) | _ => None end
  | EPublish => match s_phase s with PBuild => Some ((Publish, true), mk_st PCur (s_mods s) (s_qs s)) | _ => None end
  | EFail => match s_phase s with PBuild => Some ((Fail, true), mk_st PGone (s_mods s) (s_qs s)) | _ => None end
  | EWork i h => match nth_error (s_mods s) i with
                 | None => None
                 | Some m => match work i h m with None => None | Some (a, b, m') => Some ((a, b && alive (s_phase s)), mk_st (s_phase s) (put (s_mods s) i m') (s_qs s)) end
                 end
  | ESweep i => match nth_error (s_mods s) i with
                | None => None
                | Some m => match sweep i m with None => None | Some (a, b, m') => Some ((a, b && alive (s_phase s)), mk_st (s_phase s) (put (s_mods s) i m') (s_qs s)) end
                end
  | EBegin q i => match s_phase s, nth_error (s_qs s) q, nth_error (s_mods s) i with
                  | PCur, Some None, Some _ => Some ((Tau, true), mk_st PCur (s_mods s) (put (s_qs s) q (Some i)))
                  | _, _, _ => None
                  end
  | ESend q => match nth_error (s_qs s) q with
               | Some (Some i) => match nth_error (s_mods s) i with
                                  | None => None
                                  | Some m => Some ((Send i, (negb (m_udp m) || m_ctx m && m_addrs m) && alive (s_phase s)), mk_st (s_phase s) (s_mods s) (put (s_qs s) q None))
                                  end
               | _ => None
               end
  | EReplace => match s_phase s with PCur => if idle (s_qs s) then Some ((Replace, true), mk_st (POld CNew) (s_mods s) (s_qs s)) else None | _ => None end
  | EClean => match s_phase s with
              | POld CFree => Some ((Drop, true), mk_st PGone (s_mods s) (s_qs s))
              | POld c => let (c', ms) := clean c (s_mods s) in
                          Some ((match c with CSet i _ => if (i <? length ms)%nat then Order i else Tau | _ => Tau end, true), mk_st (POld c') ms (s_qs s))
              | _ => None
              end
  end.
(** An execution: what is observed, and the state reached. mmgr.c 510-877, udpm.c 12-425, tcpm.c 490-740. *)
Fixpoint run (s : st) (es : list event) : option (list label * st) :=
  match es with
  | [] => Some ([], s)
  | e :: es' => match step s e with None => None | Some (l, s1) => match run s1 es' with None => None | Some (ls, s2) => Some (l :: ls, s2) end end
  end.
