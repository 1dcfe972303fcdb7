(** Model of the module manager (mmgr.c): the server groups and the choice of the group a query is sent to. *)
From Verif Require Import Base Hash_Model Addr_Model Slist_Model Sht_Model Chunk_Model Slist_Proofs Line_Model Config_Model Filter_Model.

(** ModuleName of a module, mmgr.c 30-34: UDP or TCP (mmgr.c 96-280). *)
Inductive proto := UDP | TCP.
(** struct _ModuleMap, mmgr.c 30-34: the protocols (ModuleName) of the modules in the order of ModuleArray; the data of a rule is the number of its module. *)
Record mmap := mk_mmap { m_mods : list proto; m_dist : chunk nat }.
(** An empty ModuleMap, mmgr.c 655-731. *)
Definition mmap_init : mmap := mk_mmap [] chunk_init.
(** DomainList_Tidy, mmgr.c 45-49; TrimAll as in C37_list (Slist_Proofs.strip_all), LowercaseAll applies StrToLower to each string. *)
Definition tidy (l : list (list Z)) : list (list Z) := map str_to_lower (strip_all [9; 32; 46] l).

Section M.
Context (udp_ok tcp_ok : list Z -> bool).                          (* UdpM_Init, TcpM_Init succeed for these services *)
Context (fs : list Z -> option (option (list Z))).                 (* a path: it cannot be expanded, the file cannot be opened, or its contents *)
Context (fn : list Z -> list Z -> bool).                           (* fnmatch(3) *)
(** StoreAModule, 76-94, and MappingAModule, 51-74.  Allocation succeeds. *)
Definition add_module (m : mmap) (p : proto) (ds : list (list Z)) : mmap :=
  mk_mmap (m_mods m ++ [p]) (fold_left (fun k d => chunk_add_domain k d (Some (length (m_mods m)))) ds (m_dist m)).
(** Udp_Init_Core, 96-145: None is an error; whether queries go to all servers ("on") is not modelled. *)
Definition udp_core (m : mmap) (services : option (list Z)) (ds : list (list Z)) (parallel : option (list Z)) : option mmap :=
  match services, parallel with
  | Some s, Some _ => if udp_ok s then Some (add_module m UDP ds) else None
  | _, _ => None
  end.
(** Tcp_Init_Core, 183-242; the proxies and Parallel are in Grp_Model. *)
Definition tcp_core (m : mmap) (services : option (list Z)) (ds : list (list Z)) (parallel proxies : option (list Z)) : option mmap :=
  match services, parallel, proxies with
  | Some s, Some _, Some _ => if tcp_ok s then Some (add_module m TCP ds) else None
  | _, _, _ => None
  end.
(** The first loop of Modules_InitFromFile, 373-401: the arguments and the domains; the buffer has 384 bytes. *)
Fixpoint group_lines (fuel : nat) (args : chunk (list Z)) (ds : list (list Z)) (f : file) : outcome (chunk (list Z) * list (list Z)) :=
  match fuel with
  | O => Fuel
  | S fuel' =>
    let! r := read_line1 384 f in
    match fst r with
    | RlEnd => Ret (args, ds)
    | RlTrunc _ => let! q := next_line (S (length (f_bytes (snd r)))) (snd r) in group_lines fuel' args ds (snd q)
    | RlDone x =>
      match split_nv (str_to_lower x) with
      | Some (k, v) => group_lines fuel' (chunk_add args k (Some v)) ds (snd r)
      | None => group_lines fuel' args (ds ++ [str_to_lower x]) (snd r)
      end
    end
  end.
(** The second loop, mmgr.c 436-456: the lines of the domain list. *)
Fixpoint list_lines (fuel : nat) (ds : list (list Z)) (f : file) : outcome (list (list Z)) :=
  match fuel with
  | O => Fuel
  | S fuel' =>
    let! r := read_line1 384 f in
    match fst r with
    | RlEnd => Ret ds
    | RlTrunc _ => let! q := next_line (S (length (f_bytes (snd r)))) (snd r) in list_lines fuel' ds (snd q)
    | RlDone x => list_lines fuel' (ds ++ [str_to_lower x]) (snd r)
    end
  end.
(** The key "protocol" in Modules_InitFromFile, mmgr.c 318-524. *)
Definition w_protocol : list Z := [112; 114; 111; 116; 111; 99; 111; 108].
(** The key "list", mmgr.c 318-524. *)
Definition w_list : list Z := [108; 105; 115; 116].
(** The key "server", mmgr.c 318-524. *)
Definition w_server : list Z := [115; 101; 114; 118; 101; 114].
(** The key "parallel", mmgr.c 318-524. *)
Definition w_parallel : list Z := [112; 97; 114; 97; 108; 108; 101; 108].
(** The key "proxy", mmgr.c 318-524. *)
Definition w_proxy : list Z := [112; 114; 111; 120; 121].
(** StringChunk_Match_NoWildCard(&Args, ...): the pointer keeps its value [def] if nothing is found. mmgr.c 318-524. *)
Definition arg (args : chunk (list Z)) (k : list Z) (def : option (list Z)) : outcome (option (list Z)) :=
  let! r := match_plain args k None (fun _ => true) in Ret (match r with None => def | Some v => v end).
(** Modules_InitFromFile, 318-524; None is an error. *)
Definition init_from_file (m : mmap) (path : list Z) : outcome (option mmap) :=
  match fs path with
  | None => Ret None
  | Some None => Ret (Some m)
  | Some (Some bs) =>
    let! r := group_lines (S (length bs)) chunk_init [] (mkf bs false) in
    let args := fst r in
    let! protocol := arg args w_protocol None in
    match protocol with
    | None => Ret None
    | Some p =>
      let! lst := arg args w_list None in
      let! more := match lst with
                   | None => Ret (Some (snd r))
                   | Some x => match fs x with
                               | None => Ret None
                               | Some None => Ret (Some (snd r))
                               | Some (Some bs') => let! d := list_lines (S (length bs')) (snd r) (mkf bs' false) in Ret (Some d)
                               end
                   end in
      match more with
      | None => Ret None
      | Some ds0 =>
        match tidy ds0 with
        | [] => Ret (Some m)
        | ds =>
          let any := str_eqb p [42] in
          let use_udp := if any then true else str_eqb p [117; 100; 112] in
          let use_tcp := if use_udp then any else str_eqb p [116; 99; 112] in
          let! services := arg args w_server None in
          let! parallel := arg args w_parallel (Some [111; 110]) in
          let! proxies := arg args w_proxy (Some [110; 111]) in
          let m1 := if use_udp then udp_core m services ds parallel else Some m in
          let m2 := if use_tcp then match m1 with Some x => tcp_core x services ds parallel proxies | None => None end else m1 in
          Ret (if use_udp || use_tcp then m2 else None)
        end
      end
    end
  end.
(** Modules_Init, 526-576, with Udp_Init, 147-181, and Tcp_Init, 244-280; the strings of "ServerGroup"; None is an error.  Running out of strings is an error
    (iterators give NULL).  StringList_Init as in C37_list (Slist_Proofs.pieces). *)
Fixpoint modules_init (m : mmap) (l : list (list Z)) : outcome (option mmap) :=
  match l with
  | [] => Ret (Some m)
  | ty :: l1 =>
    if str_eqb ty [85; 68; 80] then
      match l1 with
      | s :: d :: p :: l2 => match udp_core m (Some s) (tidy (pieces [44] d)) (Some p) with Some m' => modules_init m' l2 | None => Ret None end
      | _ => Ret None
      end
    else if str_eqb ty [84; 67; 80] then
      match l1 with
      | s :: d :: p :: x :: l2 => match tcp_core m (Some s) (tidy (pieces [44] d)) (Some p) (Some x) with Some m' => modules_init m' l2 | None => Ret None end
      | _ => Ret None
      end
    else if str_eqb ty [70; 73; 76; 69] then
      match l1 with
      | f :: l2 => let! r := init_from_file m f in match r with Some m' => modules_init m' l2 | None => Ret None end
      | _ => Ret None
      end
    else Ret None
  end.
(** Modules_Load, 655-731: the map used afterwards; an empty list is an error (ConfigGetStringList gives NULL). *)
Definition modules_load (cur : mmap) (l : list (list Z)) : outcome mmap :=
  match l with
  | [] => Ret cur
  | _ => let! r := modules_init mmap_init l in Ret (match r with Some m => m | None => cur end)
  end.
(** ModuleFitRequest, 794-816; [tcp]: the query came over TCP, or the one it is made for did. *)
Definition module_fit (mods : list proto) (t2u u2t tcp : bool) (i : option nat) : bool :=
  match i with
  | None => false
  | Some i => match nth_error mods i with
              | Some UDP => if tcp then t2u else true
              | Some TCP => if tcp then true else u2t
              | None => false
              end
  end.
(** The choice of the module in MMgr_Send, 847-874; [id]: the identifier of the query. *)
Definition choose (stale : list Z) (m : mmap) (t2u u2t tcp : bool) (name : list Z) (hash : Z) (rnd : nat) (id : Z) : outcome (option nat) :=
  let! r := domain_match_random fn stale (m_dist m) name (Some hash) (module_fit (m_mods m) t2u u2t tcp) rnd in
  match r with
  | Some (Some i) => Ret (Some i)
  | Some None => UBR
  | None => match m_mods m with [] => Ret None | l => Ret (Some (Z.to_nat (Z.rem id (Z.of_nat (length l))))) end
  end.
(** What becomes of a query. udpfrontend.c 17-106 and tcpfrontend.c 16-135 with mmgr.c 818-877. *)
Inductive fate := Refused (reply : list Z) | FromHosts | FromCache | Sent (module : nat) | Dropped.
(** MMgr_Send, 818-877; [hosts], [cache]: Hosts_Get and DNSCache_FetchFromCache answer it. *)
Definition mmgr_send (stale : list Z) (t : option (Bst_Model.bst Z)) (k : option (chunk unit)) (hosts cache : bool) (m : mmap) (t2u u2t tcp : bool) (q : list Z) (type : Z) (name : list Z) (hash : Z) (rnd : nat) (id : Z) : outcome fate :=
  let! a := filter_out fn stale t k tcp q type name hash in
  match a with
  | Some reply => Ret (Refused reply)
  | None =>
    if hosts then Ret FromHosts
    else if cache then Ret FromCache
    else let! c := choose stale m t2u u2t tcp name hash rnd id in Ret (match c with Some i => Sent i | None => Dropped end)
  end.
End M.
