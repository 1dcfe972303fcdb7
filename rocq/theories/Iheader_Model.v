(** Model of the labelling of received messages (iheader.c 21-103) and of the UDP front end's loop
    (udpfrontend.c 17-106). *)
From Verif Require Import Base Name_Model Parser_Model Hash_Model Gen_Model Mctx_Model.

(** The members of the header that the loop of IHeader_Fill sets, iheader.c 48-78.  [f_dom] is the array Domain (256 bytes). *)
Record fstate := mk_fs { f_dom : list Z; f_hash : Z; f_type : Z; f_edns : bool }.

(** StrToLower, utils.c 87-95, on the string in an array. *)
Definition lower_in (b : list Z) : list Z := str_to_lower (cstr b) ++ skipn (length (cstr b)) b.

(** The loop of IHeader_Fill, iheader.c 48-78, with its early returns (the result code).  [fuel] bounds the number of records, [nf] the
    loop of DNSGetHostName. *)
Fixpoint fill_loop (fuel nf : nat) (m : list Z) (len : nat) (i : iter) (s : fstate) : outcome (Z * fstate) :=
  match fuel with
  | O => Fuel
  | S fuel' =>
    let! r := iter_next m (Z.of_nat len) i in
    match r with
    | (None, _) => Ret (0, s)
    | (Some pos, i') =>
      match it_purpose i' with
      | P_question =>
        if negb (it_klass i' =? 1) then Ret (-48, s)
        else
          let! n := get_host_name nf len m pos (f_dom s) in
          let d := match snd n with Some b => b | None => f_dom s end in
          match fst n with
          | None => Ret (-46, mk_fs d (f_hash s) (f_type s) (f_edns s))
          | Some _ =>
            let! ty := rec_type m 12 in
            fill_loop fuel' nf m len i' (mk_fs (lower_in d) (bkdr (cstr (lower_in d))) ty (f_edns s))
          end
      | P_additional => fill_loop fuel' nf m len i' (mk_fs (f_dom s) (f_hash s) (f_type s) (if it_type i' =? 41 then true else f_edns s))
      | _ => fill_loop fuel' nf m len i' s
      end
    end
  end.

(** IHeader_Fill, iheader.c 21-103.  [h] is the header as it was before and [dom] its array Domain ([h_domain h] is the string in it);
    [m] is the memory from DnsEntity on, [len] is EntityLength (not negative in any call).  [back]: the bytes of the address, with its
    family; None is a NULL BackAddress.  Agent is an array of 48 bytes.  The result: return value, header and array. *)
Definition ih_fill (fuel nf : nat) (h : iheader) (dom : list Z) (rethdr : bool) (m : list Z) (len : nat) (back : option (list Z)) (sock : Z)
    (agent : option (list Z)) : outcome (Z * iheader * list Z) :=
  match parser_init len false with
  | None => Ret (-31, mk_ih None false (h_time h) (h_back h) (h_sock h) (h_domain h) (h_hash h) (h_type h) (h_rethdr h) false (h_len h) (h_agent h), dom)
  | Some _ =>
    let! i := iter_init m P_unknown 0 0 0 in
    let! r := fill_loop fuel nf m len i (mk_fs dom (h_hash h) (h_type h) false) in
    let '(code, s) := r in
    if code =? 0
    then Ret (0, mk_ih None false (h_time h) back sock (cstr (f_dom s)) (f_hash s) (f_type s) rethdr (f_edns s) (Z.of_nat len)
                       (match agent with Some a => firstn 47 a | None => [] end), f_dom s)
    else Ret (code, mk_ih None false (h_time h) (h_back h) (h_sock h) (cstr (f_dom s)) (f_hash s) (f_type s) (h_rethdr h) (f_edns s) (h_len h)
                          (h_agent h), f_dom s)
  end.

(** MsgContext_IsBlocked, iheader.c 145-150; [ap]: the option -ap, set by MsgContext_Init, 106-111. *)
Definition is_blocked (ap : bool) (c : mctx) : bool := ap && negb (h_edns (c_h c)).

(** A datagram as recvfrom gives it: its bytes, the address of its sender (with the family), the socket it came in at, and the text of the
    address (IPv4AddressToAsc, IPv6AddressToAsc), udpfrontend.c 51-83. *)
Record dgram := mk_dgram { d_bytes : list Z; d_addr : list Z; d_sock : Z; d_agent : list Z }.

(** The buffer that UdpFrontend_Work uses for all of its messages, udpfrontend.c 25-33: header, its array Domain, entity. *)
Record ubuf := mk_ubuf { u_h : iheader; u_dom : list Z; u_mem : list Z }.

Section Front.
(** MMgr_Send, mmgr.c 818-877, may change the buffer that it is given: what it leaves there. *)
Context (leave : ubuf -> ubuf).

(** One turn of the loop of UdpFrontend_Work, udpfrontend.c 36-104; None: recvfrom fails.  The result: what is handed to MMgr_Send, and the
    buffer for the next turn.  A datagram that is longer than the entity's room is cut off by recvfrom.  The result of IHeader_Fill is ignored. *)
Definition udp_turn (fuel nf : nat) (b : ubuf) (d : option dgram) : outcome (option mctx * ubuf) :=
  match d with
  | None => Ret (None, b)
  | Some d =>
    let bytes := firstn (length (u_mem b)) (d_bytes d) in
    let mem := bytes ++ skipn (length bytes) (u_mem b) in
    let! r := ih_fill fuel nf (u_h b) (u_dom b) false mem (length bytes) (Some (d_addr d)) (d_sock d) (Some (d_agent d)) in
    let '(_, h, dom) := r in
    Ret (Some (mk_ctx h mem), leave (mk_ubuf h dom mem))
  end.

(** The loop, udpfrontend.c 36-104: what is handed to MMgr_Send in each turn. *)
Fixpoint udp_turns (fuel nf : nat) (b : ubuf) (ds : list (option dgram)) : outcome (list (option mctx)) :=
  match ds with
  | [] => Ret []
  | d :: ds' => let! r := udp_turn fuel nf b d in let! rs := udp_turns fuel nf (snd r) ds' in Ret (fst r :: rs)
  end.
End Front.
