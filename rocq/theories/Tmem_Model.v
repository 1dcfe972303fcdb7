(** Model of the memory that a server module takes and gives back: TcpM_Init (tcpm.c 742-920) with its nine exits, TcpM_Cleanup (506-533), UdpM_Init
    (udpm.c 330-427), UdpM_Cleanup (54-67) and the end of UdpM_Sweep_Thread (46).  The addresses, sockets and threads are in Grp_Model, Tcpm_Model, Fam_Model. *)
From Verif Require Import Base.

(** What is allocated: the table of contexts; Puller, QueryPuller, ProxyPuller; the elements of the array in ServiceList / SocksProxyList / AddrList (an address list with
    its first allocation, addresslist.c 7-15, is one block however it is moved by realloc); the pointers and the families from AddressList_GetPtrList (199-242); the
    pointers and the pullers from SocketPullers_Init (socketpuller.c 123-164); the parts of the text (StringList); Parallels.addrs (udpm.c 383).  A puller, a table of
    contexts and a StringList are one block each, for the blocks they are made of. *)
Inductive block :=
| BContext | BPuller | BText | BAddrs | BPtrs | BFams | BQueryPuller | BAgentPtrs | BAgents
| BProxyText | BProxyAddrs | BProxyPtrs | BProxyFams | BProxyPuller | BProxyPullerPtrs | BProxyPullers | BParallels.
(** One step, in the order of the program: malloc or free of a block (tcpm.c 742-920, udpm.c 330-427). *)
Inductive event := Alloc (b : block) | Free (b : block).

(** SafeFree of element 0 of the list of pointers, tcpm.c 520, 902, 911: this is the address of the first element's Addr, the first member of Address_Type
    (addresslist.h 8-15), hence of the array itself; without an element it is the NULL at the end of the list, and nothing is freed. *)
Definition free_first (n : nat) (b : block) : list event := match n with O => [] | S _ => [Free b] end.

Section TCP.
(** Whether the [i]-th step that can fail does so (tcpm.c 751, 757, 763, 772, 781, 805, 813, 819, 832, 841, 863, 872, 878); the numbers of addresses in the texts. *)
Context (fails : nat -> bool) (servers : nat) (proxies : option nat).

(** EXIT_1, tcpm.c 917-918. *)
Definition exit_1 : list event := [Free BContext].
(** EXIT_2, tcpm.c 915-916. *)
Definition exit_2 : list event := Free BPuller :: exit_1.
(** EXIT_3, tcpm.c 913-914. *)
Definition exit_3 : list event := Free BAddrs :: exit_2.
(** EXIT_4, tcpm.c 910-911. *)
Definition exit_4 : list event := free_first servers BAddrs ++ exit_3.
(** EXIT_5, tcpm.c 908-909. *)
Definition exit_5 : list event := Free BQueryPuller :: exit_4.
(** EXIT_6, tcpm.c 906-907; SocketPullers_Free, socketpuller.c 186-196, frees the list of pointers (and what the pullers hold), not the pullers. *)
Definition exit_6 : list event := Free BAgentPtrs :: exit_5.
(** EXIT_7, tcpm.c 903-904. *)
Definition exit_7 : list event := Free BProxyAddrs :: exit_6.
(** EXIT_8, tcpm.c 901-902. *)
Definition exit_8 (np : nat) : list event := free_first np BProxyAddrs ++ exit_7.
(** EXIT_9, tcpm.c 899-900. *)
Definition exit_9 (np : nat) : list event := Free BProxyPuller :: exit_8 np.

(** The part for proxies, tcpm.c 826-884. *)
Definition init_proxies : bool * list event :=
  match proxies with
  | None => (true, [])
  | Some np =>
    if fails 8 then (false, exit_6) else
    let e8 := [Alloc BProxyAddrs] in
    if fails 9 then (false, e8 ++ exit_7) else
    let e9 := e8 ++ [Alloc BProxyText; Free BProxyText] in
    if fails 10 then (false, e9 ++ exit_7) else
    let e10 := e9 ++ [Alloc BProxyPtrs; Alloc BProxyFams] in
    if fails 11 then (false, e10 ++ exit_8 np) else
    let e11 := e10 ++ [Alloc BProxyPuller] in
    if fails 12 || Nat.eqb np 0 then (false, e11 ++ exit_9 np) else
    (true, e11 ++ [Alloc BProxyPullerPtrs; Alloc BProxyPullers])
  end.

(** TcpM_Init, tcpm.c 742-920: whether it succeeds, and what it takes and gives back.  StringListIterator_Init does not fail for a list (stringlist.c); step 5 is
    AddressList_GetPtrList, with both its allocations. *)
Definition tcp_mem_init : bool * list event :=
  if fails 0 then (false, []) else
  let e0 := [Alloc BContext] in
  if fails 1 then (false, e0 ++ exit_1) else
  let e1 := e0 ++ [Alloc BPuller] in
  if fails 2 then (false, e1 ++ exit_1) else
  if fails 3 then (false, e1 ++ exit_2) else
  let e3 := e1 ++ [Alloc BAddrs] in
  if fails 4 then (false, e3 ++ exit_2) else
  let e4 := e3 ++ [Alloc BText; Free BText] in
  if fails 5 then (false, e4 ++ exit_3) else
  let e5 := e4 ++ [Alloc BPtrs; Alloc BFams] in
  if fails 6 then (false, e5 ++ exit_4) else
  let e6 := e5 ++ [Alloc BQueryPuller] in
  if fails 7 || Nat.eqb servers 0 then (false, e6 ++ exit_5) else
  let e7 := e6 ++ [Alloc BAgentPtrs; Alloc BAgents] in
  let '(ok, ep) := init_proxies in (ok, e7 ++ ep).

(** TcpM_Cleanup, tcpm.c 506-533. *)
Definition tcp_mem_cleanup : list event :=
  [Free BPuller; Free BContext]
  ++ match proxies with
     | None => []
     | Some np => [Free BProxyPuller; Free BProxyPullerPtrs] ++ free_first np BProxyAddrs ++ [Free BProxyAddrs; Free BProxyFams]
     end
  ++ [Free BQueryPuller; Free BAgentPtrs; Free BPtrs; Free BAddrs; Free BFams].

(** A module from its initialisation to its end (TcpM_Works, tcpm.c 737): one that is not set up is not used and is not cleaned up (mmgr.c 106-115). *)
Definition tcp_mem : list event := let '(ok, e) := tcp_mem_init in e ++ if ok then tcp_mem_cleanup else [].
End TCP.

Section UDP.
(** Whether the [i]-th step that can fail does so (udpm.c 343, 356, 384, 396); the number of addresses in the text; Parallel. *)
Context (fails : nat -> bool) (servers : nat) (parallel : bool).

(** Parallels.addrs is allocated, udpm.c 371-394; SafeFree(NULL) does nothing. *)
Definition has_list : bool := parallel && negb (fails 2).
(** UdpM_Init, udpm.c 330-427. *)
Definition udp_mem_init : bool * list event :=
  if fails 0 then (false, []) else
  if fails 1 then (false, [Alloc BText; Free BText]) else
  let e1 := [Alloc BText; Alloc BAddrs; Free BText] in
  if parallel && Nat.eqb servers 0 then (false, e1 ++ [Free BAddrs]) else
  let e2 := e1 ++ if has_list then [Alloc BParallels] else [] in
  if fails 3 then (false, e2 ++ (if has_list then [Free BParallels] else []) ++ [Free BAddrs]) else
  (true, e2 ++ [Alloc BContext]).
(** UdpM_Cleanup, udpm.c 54-67, and the end of UdpM_Sweep_Thread, 46, after it (43: WorkThread is NULL_THREAD; C82). *)
Definition udp_mem_cleanup : list event := (if has_list then [Free BParallels] else []) ++ [Free BAddrs; Free BContext].
(** A module from its initialisation to its end, udpm.c 254 and 46. *)
Definition udp_mem : list event := let '(ok, e) := udp_mem_init in e ++ if ok then udp_mem_cleanup else [].
End UDP.
