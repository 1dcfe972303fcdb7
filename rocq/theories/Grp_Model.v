(** Model of setting up the server groups (mmgr.c 96-576) with what each module is made of: its servers, whether they are asked in parallel, its proxies
    (TcpM_Init, tcpm.c 742-917; UdpM_Init is in Fam_Model). *)
From Verif Require Import Base Hash_Model Addr_Model Slist_Model Slist_Proofs Sht_Model Chunk_Model Line_Model Config_Model Filter_Model Arr_Model Alist_Model Mmgr_Model Udpm_Model Fam_Model.

(** What a module has after its initialisation, udpm.h 12-45 and tcpm.h 15-49: the servers and, with parallel asking, the family and the servers asked; the servers,
    Parallel and SocksProxyList (None: SocksProxies is NULL). *)
Inductive msetup := MUdp (servers : addrlist saddr) (par : option (bool * list saddr)) | MTcp (servers : addrlist saddr) (par : bool) (proxies : option (addrlist saddr)).
(** struct _ModuleMap, mmgr.c 30-34, with the modules themselves. *)
Record gmap := mk_gmap { g_mods : list msetup; g_dist : chunk nat }.
(** An empty ModuleMap, mmgr.c 655-731. *)
Definition gmap_init : gmap := mk_gmap [] chunk_init.
(** ModuleName, mmgr.c 117 and 206. *)
Definition proto_of (s : msetup) : proto := match s with MUdp _ _ => UDP | MTcp _ _ _ => TCP end.
(** StoreAModule, mmgr.c 76-94, and MappingAModule, 51-74. *)
Definition add_setup (m : gmap) (s : msetup) (ds : list (list Z)) : gmap :=
  mk_gmap (g_mods m ++ [s]) (fold_left (fun k d => chunk_add_domain k d (Some (length (g_mods m)))) ds (g_dist m)).
(** strncpy into eight bytes, the last one set to NUL, StrToLower and strcmp, mmgr.c 119-129, 208-226. *)
Definition setting (v w : list Z) : bool := str_eqb (str_to_lower (firstn 7 v)) w.

Section M.
(** Fuel; what is in memory that is not initialised (by the number of the call); whether the module numbered so finds a local port (C74); files as in Mmgr_Model. *)
Context (fuel : nat) (mem : nat -> nat -> Z) (junk : nat -> nat -> (nat -> Z) * Z) (bind_ok : nat -> bool).
Context (fs : list Z -> option (option (list Z))).

(** TcpM_Init, tcpm.c 742-917; the [i]-th module.  Allocation succeeds; without a server or a proxy SocketPullers_Init fails (socketpuller.c 129-132), and in the
    second case the servers are freed twice (911, 914; C91), which is undefined.  The sets of sockets and the thread are in Tcpm_Model. *)
Definition tcp_init (i : nat) (text : list Z) (parallel : bool) (proxies : option (list Z)) : outcome (option msetup) :=
  if bind_ok i then
    let! a := load_services fuel true (mem (2 * i)) (junk (2 * i)) 53 text in
    match a with
    | None => Ret None
    | Some a =>
      match al_list a, proxies with
      | [], _ => Ret None
      | _, None => Ret (Some (MTcp a parallel None))
      | _, Some t =>
        let! b := load_services fuel true (mem (2 * i + 1)) (junk (2 * i + 1)) 1080 t in
        match b with
        | None => UBW
        | Some b => match al_list b with [] => UBW | _ => Ret (Some (MTcp a parallel (Some b))) end
        end
      end
    end
  else Ret None.
(** Udp_Init_Core from UdpM_Init on, mmgr.c 131-145. *)
Definition udp_set (m : gmap) (services : list Z) (ds : list (list Z)) (parallel : bool) : outcome (option gmap) :=
  let i := length (g_mods m) in
  let! r := udp_init fuel true (mem (2 * i)) (junk (2 * i)) services parallel in
  Ret (match r with None => None | Some (a, p) => Some (add_setup m (MUdp a p) ds) end).
(** Tcp_Init_Core from TcpM_Init on, mmgr.c 228-242. *)
Definition tcp_set (m : gmap) (services : list Z) (ds : list (list Z)) (parallel : bool) (proxies : option (list Z)) : outcome (option gmap) :=
  let! r := tcp_init (length (g_mods m)) services parallel proxies in
  Ret (match r with None => None | Some s => Some (add_setup m s ds) end).
(** Udp_Init_Core, mmgr.c 96-145. *)
Definition udp_group (m : gmap) (services : option (list Z)) (ds : list (list Z)) (parallel : option (list Z)) : outcome (option gmap) :=
  match services, parallel with
  | Some s, Some p => udp_set m s ds (setting p [111; 110])
  | _, _ => Ret None
  end.
(** Tcp_Init_Core, mmgr.c 183-242. *)
Definition tcp_group (m : gmap) (services : option (list Z)) (ds : list (list Z)) (parallel proxies : option (list Z)) : outcome (option gmap) :=
  match services, parallel, proxies with
  | Some s, Some p, Some x => tcp_set m s ds (setting p [111; 110]) (if setting x [110; 111] then None else Some x)
  | _, _, _ => Ret None
  end.
(** Modules_InitFromFile, mmgr.c 318-524; None is an error.  With "*" TCP is set up even if UDP was not, but the result is the error. *)
Definition group_file (m : gmap) (path : list Z) : outcome (option gmap) :=
  match fs path with
  | None => Ret None
  | Some None => Ret (Some m)
  | Some (Some bs) =>
    let! r := group_lines (S (length bs)) chunk_init [] (mkf bs false) in
    let args := fst r in
    let! protocol := arg args w_protocol None in
    match protocol with
    | None => Ret None
    | Some p =>
      let! lst := arg args w_list None in
      let! more := match lst with
                   | None => Ret (Some (snd r))
                   | Some x => match fs x with
                               | None => Ret None
                               | Some None => Ret (Some (snd r))
                               | Some (Some bs') => let! d := list_lines (S (length bs')) (snd r) (mkf bs' false) in Ret (Some d)
                               end
                   end in
      match more with
      | None => Ret None
      | Some ds0 =>
        match tidy ds0 with
        | [] => Ret (Some m)
        | ds =>
          let any := str_eqb p [42] in
          let use_udp := if any then true else str_eqb p [117; 100; 112] in
          let use_tcp := if use_udp then any else str_eqb p [116; 99; 112] in
          let! services := arg args w_server None in
          let! parallel := arg args w_parallel (Some [111; 110]) in
          let! proxies := arg args w_proxy (Some [110; 111]) in
          let! m1 := if use_udp then udp_group m services ds parallel else Ret (Some m) in
          let! m2 := if use_tcp then tcp_group (match m1 with Some x => x | None => m end) services ds parallel proxies else Ret m1 in
          Ret (if use_udp || use_tcp then match m1 with None => None | Some _ => m2 end else None)
        end
      end
    end
  end.
(** Modules_Init, mmgr.c 526-576, with Udp_Init, 147-181, and Tcp_Init, 244-280. *)
Fixpoint groups_init (m : gmap) (l : list (list Z)) : outcome (option gmap) :=
  match l with
  | [] => Ret (Some m)
  | ty :: l1 =>
    if str_eqb ty [85; 68; 80] then
      match l1 with
      | s :: d :: p :: l2 => let! r := udp_group m (Some s) (tidy (pieces [44] d)) (Some p) in match r with Some m' => groups_init m' l2 | None => Ret None end
      | _ => Ret None
      end
    else if str_eqb ty [84; 67; 80] then
      match l1 with
      | s :: d :: p :: x :: l2 => let! r := tcp_group m (Some s) (tidy (pieces [44] d)) (Some p) (Some x) in match r with Some m' => groups_init m' l2 | None => Ret None end
      | _ => Ret None
      end
    else if str_eqb ty [70; 73; 76; 69] then
      match l1 with
      | f :: l2 => let! r := group_file m f in match r with Some m' => groups_init m' l2 | None => Ret None end
      | _ => Ret None
      end
    else Ret None
  end.
(** Modules_Load, mmgr.c 655-731. *)
Definition groups_load (cur : gmap) (l : list (list Z)) : outcome gmap :=
  match l with
  | [] => Ret cur
  | _ => let! r := groups_init gmap_init l in Ret (match r with Some m => m | None => cur end)
  end.
End M.
