(** Model of reloading a rule table while queries are answered: dynamichosts.c (hosts), filter.c (disabled domains), ipmisc.c
    (address rules) and mmgr.c (server groups) share the scheme: a new table is built privately, then published under the write
    lock; queries read the published pointer under the read lock.

    A state transition system with any number of query threads and the (single) reloading thread, interleaved arbitrarily; each
    transition is one access to shared memory or one operation on the lock.  The lock is a readers-writer lock
    (pthread_rwlock, or a mutex, which only allows fewer interleavings; rwlock.h 24-28).
    Simplified: sequentially consistent memory (the NULL test at the beginning of a query is outside of the lock). *)
From Verif Require Import Base.

(** The differences between the four tables. dynamichosts.c 41-103, ipmisc.c 241-358, filter.c 207-244, mmgr.c 606-731. *)
Record variant := mk_variant {
  v_check : bool;   (* the query first tests the pointer, outside of the lock, and does without a table if it is NULL *)
  v_nulls : bool;   (* freeing the old table also sets the published pointer to NULL *)
  v_defer : bool }. (* the old table is handed to a thread that frees it later *)
(** dynamichosts.c: the test 245, 266, 287; DynamicHosts_ContainerCleanup 25-32 sets only its parameter to NULL. *)
Definition hosts_variant := mk_variant true false false.
(** ipmisc.c: the test 388; IpMiscMapping_Free 165-174 sets only its parameter to NULL. *)
Definition ipmisc_variant := mk_variant true false false.
(** filter.c: the test 291; DisabledDomain_Cleanup 207-214 applies SafeFree (utils.h 40) to DisabledDomain itself. *)
Definition filter_variant := mk_variant true true false.
(** mmgr.c: no test 846-857; the old map is passed to Modules_SafeCleanup 717. *)
Definition modules_variant := mk_variant false false true.

(** Where the reloading thread is: DynamicHosts_Load 41-103, DisabledDomain_Init 216-244, IpMiscMapping_Load 241-358,
    Modules_Load 655-731; [t] is the new table. *)
Inductive wpc :=
| WIdle
| WLoad (t : nat) (k : nat)   (* building: k lines are loaded *)
| WReady (t : nat)            (* before RWLock_WrLock *)
| WLocked (t : nat)           (* behind RWLock_WrLock *)
| WFreed (t : nat)            (* the old table is freed, or handed over *)
| WStored.                    (* the pointer is assigned, before RWLock_UnWLock *)
(** Where a query thread is: DynamicHosts_Try 283-302 (GetCName 241, TypeExisting 262), IsDisabledDomain 287-301,
    IPMiscMapping_Process 383-403, MMgr_Send 846-874. *)
Inductive rpc :=
| RIdle
| RWant                       (* before RWLock_RdLock *)
| RHeld                       (* behind it *)
| RUse (o : option nat).      (* using the table the pointer had *)

Section Reload.
Context {line : Type}.
(** What the t-th load finds in the files: anything. *)
Context (src : nat -> list line).

(** The shared variables (dynamichosts.c 17-18, ipmisc.c 161-162, filter.c 14-15, mmgr.c 36-37) and where the threads are. *)
Record state := mk_state {
  ptr : option nat;                     (* the published pointer *)
  heap : nat -> option (list line);     (* the tables: their content; None: not allocated, or freed *)
  fresh : nat;                          (* loads begun so far *)
  rd : nat; wr : bool;                  (* the lock: readers inside, a writer inside *)
  pend : list nat;                      (* tables waiting for their cleanup thread *)
  w : wpc;
  r : list rpc }.

(** What can be observed of a transition. dynamichosts.c 41-103 and 241-302, filter.c 216-301. *)
Inductive label :=
| LStore (t : nat)                                   (* table t is published *)
| LFree                                              (* the freeing of the old table *)
| LConsult (i t : nat) (c : option (list line))      (* query thread i reads in table t, whose content is c (None: freed memory) *)
| LNull (i : nat)                                    (* query thread i uses the NULL pointer *)
| LNone (i : nat)                                    (* query thread i does without a table *)
| LTau.

(** Writing to or freeing a table, dynamichosts.c 25-103. *)
Definition set_heap (h : nat -> option (list line)) (t : nat) (c : option (list line)) : nat -> option (list line) :=
  fun x => if Nat.eqb x t then c else h x.
(** The list with its [i]th element replaced: one of the query threads (dynamichosts.c 241-302, ipmisc.c 383-403, filter.c 287-301, mmgr.c 818-877)
    has moved to another place in its code. *)
Definition set_nth (l : list rpc) (i : nat) (x : rpc) : list rpc := firstn i l ++ x :: skipn (S i) l.
(** Freeing the table that is replaced, dynamichosts.c 25-32, filter.c 207-214, ipmisc.c 165-180. *)
Definition free_old (h : nat -> option (list line)) (o : option nat) := match o with Some t => set_heap h t None | None => h end.

(** One atomic step of a thread; the lines are given for hosts: s_start to s_unlock dynamichosts.c 41-103, q_none to q_unlock dynamichosts.c 283-302. The counterparts are ipmisc.c 241-358 and 383-403, filter.c 207-244 and 287-301, mmgr.c 606-731 and 818-877. *)
Inductive step (v : variant) : state -> label -> state -> Prop :=
(* the new table is allocated *)
| s_start s : w s = WIdle ->
    step v s LTau (mk_state (ptr s) (set_heap (heap s) (fresh s) (Some [])) (S (fresh s)) (rd s) (wr s) (pend s) (WLoad (fresh s) 0) (r s))
(* one line is loaded *)
| s_line s t k l : w s = WLoad t k -> nth_error (src t) k = Some l ->
    step v s LTau (mk_state (ptr s) (set_heap (heap s) t (option_map (fun c => c ++ [l]) (heap s t))) (fresh s) (rd s) (wr s) (pend s) (WLoad t (S k)) (r s))
(* the load fails: the new table is given up *)
| s_fail s t k : w s = WLoad t k ->
    step v s LTau (mk_state (ptr s) (set_heap (heap s) t None) (fresh s) (rd s) (wr s) (pend s) WIdle (r s))
(* end of the files *)
| s_ready s t k : w s = WLoad t k -> nth_error (src t) k = None ->
    step v s LTau (mk_state (ptr s) (heap s) (fresh s) (rd s) (wr s) (pend s) (WReady t) (r s))
(* RWLock_WrLock *)
| s_lock s t : w s = WReady t -> rd s = 0%nat -> wr s = false ->
    step v s LTau (mk_state (ptr s) (heap s) (fresh s) (rd s) true (pend s) (WLocked t) (r s))
(* the old table is freed *)
| s_free s t : w s = WLocked t -> v_defer v = false ->
    step v s LFree (mk_state (if v_nulls v then None else ptr s) (free_old (heap s) (ptr s)) (fresh s) (rd s) (wr s) (pend s) (WFreed t) (r s))
(* or handed over *)
| s_defer s t : w s = WLocked t -> v_defer v = true ->
    step v s LTau (mk_state (ptr s) (heap s) (fresh s) (rd s) (wr s) (match ptr s with Some o => o :: pend s | None => pend s end) (WFreed t) (r s))
(* and freed at some later time *)
| s_clean s a x b : pend s = a ++ x :: b ->
    step v s LTau (mk_state (ptr s) (set_heap (heap s) x None) (fresh s) (rd s) (wr s) (a ++ b) (w s) (r s))
(* the pointer is assigned *)
| s_store s t : w s = WFreed t ->
    step v s (LStore t) (mk_state (Some t) (heap s) (fresh s) (rd s) (wr s) (pend s) WStored (r s))
(* RWLock_UnWLock *)
| s_unlock s : w s = WStored ->
    step v s LTau (mk_state (ptr s) (heap s) (fresh s) (rd s) false (pend s) WIdle (r s))
(* a query: the NULL test *)
| q_none s i : nth_error (r s) i = Some RIdle -> v_check v = true -> ptr s = None ->
    step v s (LNone i) s
| q_check s i : nth_error (r s) i = Some RIdle -> (v_check v = true -> ptr s <> None) ->
    step v s LTau (mk_state (ptr s) (heap s) (fresh s) (rd s) (wr s) (pend s) (w s) (set_nth (r s) i RWant))
(* RWLock_RdLock *)
| q_lock s i : nth_error (r s) i = Some RWant -> wr s = false ->
    step v s LTau (mk_state (ptr s) (heap s) (fresh s) (S (rd s)) (wr s) (pend s) (w s) (set_nth (r s) i RHeld))
(* the pointer is read *)
| q_read s i : nth_error (r s) i = Some RHeld ->
    step v s LTau (mk_state (ptr s) (heap s) (fresh s) (rd s) (wr s) (pend s) (w s) (set_nth (r s) i (RUse (ptr s))))
(* the table is read, any number of times *)
| q_consult s i t : nth_error (r s) i = Some (RUse (Some t)) -> step v s (LConsult i t (heap s t)) s
| q_null s i : nth_error (r s) i = Some (RUse None) -> step v s (LNull i) s
(* RWLock_UnRLock *)
| q_unlock s i o : nth_error (r s) i = Some (RUse o) ->
    step v s LTau (mk_state (ptr s) (heap s) (fresh s) (pred (rd s)) (wr s) (pend s) (w s) (set_nth (r s) i RIdle)).

(** The beginning: [n] idle query threads, and the table of the load at start ([true]) or none. dynamichosts.c 166-239, mmgr.c 742-783. *)
Definition start (loaded : bool) (n : nat) : state :=
  if loaded then mk_state (Some 0%nat) (set_heap (fun _ => None) 0 (Some (src 0))) 1 0 false [] WIdle (repeat RIdle n)
  else mk_state None (fun _ => None) 0 0 false [] WIdle (repeat RIdle n).

(** Executions; the labels in order. Lines as for [step], e.g. dynamichosts.c 41-302. *)
Inductive run (v : variant) : state -> list label -> state -> Prop :=
| run_nil s : run v s [] s
| run_snoc s tr s1 l s2 : run v s tr s1 -> step v s1 l s2 -> run v s (tr ++ [l]) s2.
End Reload.
