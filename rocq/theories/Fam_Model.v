(** Model of the address families of a UDP module (udpm.c): the servers that UdpM_Init finds, and the family of the socket that the worker makes. *)
From Verif Require Import Base Ip_Model Iheader_Model Mctx_Model Cht_Model Cache_Model Arr_Model Slist_Model Alist_Model Udpm_Model.

(** AddressList_GetOneBySubscript, addresslist.c 140-160 (Array_GetBySubscript gives NULL outside of the array). *)
Definition al_sub {A} (a : addrlist A) (i : nat) : option A := nth_error (al_list a) i.
(** UdpM_Init, udpm.c 330-398: the list of the servers, and with [parallel] the family of the first of them and the servers of this family
    (Parallels).  [None]: an error.  The table of the pending queries, the lock and the threads are in Udpm_Model; allocation succeeds except, with [ok], for
    the list of strings. *)
Definition udp_init (fuel : nat) (ok : bool) (mem : nat -> Z) (junk : nat -> (nat -> Z) * Z) (text : list Z) (parallel : bool) : outcome (option (addrlist saddr * option (bool * list saddr))) :=
  let! r := load_services fuel ok mem junk 53 text in
  Ret (match r with
       | None => None
       | Some a =>
         if parallel then
           match al_sub a 0 with
           | None => None
           | Some x => Some (a, Some (sa_v6 x, al_family (fun y => Bool.eqb (sa_v6 y) (sa_v6 x)) a))
           end
         else Some (a, None)
       end).

(** The family for the socket, udpm.c 98-115; [None]: there is no address. *)
Definition family_for (p : option (bool * list saddr)) (s : @udpm saddr) : option bool :=
  match p with
  | Some (f, _) => Some f
  | None => match al_get (u_addrs s) with Ret (Some x) => Some (sa_v6 x) | _ => None end
  end.

Section F.
Context (ap : bool) (misc : option (ipchunk * bool)) (p : option (bool * list saddr)).
Context (raw : list Z -> list cnode -> nat -> Z) (ignore parallel : bool) (get : list Z -> option ctrl).
Context (hdr : iheader -> list Z) (arr : list Z -> list Z) (fuel nf : nat).
(** A step of the module, udpm.c 11-328. *)
Notation step := (u_step ap misc (option_map snd p) raw ignore parallel get hdr arr fuel nf).

(** A step of the module together with the family of its socket, udpm.c 11-328: the socket is made, with the family of the moment, in a turn of the worker that
    finds none (96-133). *)
Definition fam_step (f : option bool) (s : @udpm saddr) (o : uop) : outcome (@uev saddr * (option bool * udpm)) :=
  let! r := step s o in
  Ret (fst r, (match o with UTurn true _ => if u_alive s && negb (u_open s) then family_for p s else f | _ => f end, snd r)).
(** A history, udpm.c 11-328. *)
Fixpoint fam_run (f : option bool) (s : @udpm saddr) (os : list uop) : outcome (list (@uev saddr) * (option bool * udpm)) :=
  match os with
  | [] => Ret ([], (f, s))
  | o :: os' => let! r := fam_step f s o in let! r' := fam_run (fst (snd r)) (snd (snd r)) os' in Ret (fst r :: fst r', snd r')
  end.
End F.
