(** Model of following the aliases of the hosts files: hostsutils.c 258-440, the loop of the thread in hosts.c 174-294, mcontext.c 83-115. *)
From Verif Require Import Base Name_Model Parser_Model Hash_Model Gen_Model Bst_Model Sht_Model Hosts_Model Mctx_Model Iheader_Model Udpm_Model Hmsg_Model.

(** Assignment to the header's Parent, hosts.c 241. *)
Definition set_parent (h : iheader) (p : option nat) : iheader :=
  mk_ih p (h_reqtcp h) (h_time h) (h_back h) (h_sock h) (h_domain h) (h_hash h) (h_type h) (h_rethdr h) (h_edns h) (h_len h) (h_agent h).
(** Assignment to the header's RequestTcp, hostsutils.c 315. *)
Definition set_reqtcp (h : iheader) (t : bool) : iheader :=
  mk_ih (h_parent h) t (h_time h) (h_back h) (h_sock h) (h_domain h) (h_hash h) (h_type h) (h_rethdr h) (h_edns h) (h_len h) (h_agent h).

(** The array DNSHeader of HostsUtils_GenerateQuery, hostsutils.c 268-275. *)
Definition query_header : list Z := [0; 0; 1; 0; 0; 0; 0; 0; 0; 0; 0; 0].
(** "CNameRedirect", hostsutils.c 308. *)
Definition redirect_agent : list Z := [67; 78; 97; 109; 101; 82; 101; 100; 105; 114; 101; 99; 116].

(** HostsUtils_GenerateQuery, hostsutils.c 258-318: the result code and the buffer (header, its array Domain, entity). *)
Definition generate_query (fuel nf : nat) (b : ubuf) (sock : Z) (addr : list Z) (tcp : bool) (id : Z) (name : list Z) (type : Z) : outcome (Z * ubuf) :=
  let! o := gen_init_copy fuel (u_mem b) query_header 12 false in
  match o with
  | None => Ret (-323, b)
  | Some g0 =>
    let! g1 := set_identifier id g0 in
    let! r := gen_question name type 1 g1 in
    let '(e, g) := r in
    if negb (e =? 0) then Ret (-328, mk_ubuf (u_h b) (u_dom b) (g_buf g))
    else
      let! f := ih_fill fuel nf (u_h b) (u_dom b) true (g_buf g) (g_itr g) (Some addr) sock (Some redirect_agent) in
      let '(code, h, dom) := f in
      if negb (code =? 0) then Ret (-309, mk_ubuf h dom (g_buf g)) else Ret (0, mk_ubuf (set_reqtcp h tcp) dom (g_buf g))
  end.

(** The loop of HostsUtils_CombineRecursedResponse, hostsutils.c 391-419, with its early returns; [m] is RecursedEntity's buffer. *)
Fixpoint copy_answers (fuel nf : nat) (m : list Z) (dlen : Z) (i : iter) (g : gen) : outcome (Z * gen) :=
  match fuel with
  | O => Fuel
  | S fuel' =>
    let! r := iter_next m dlen i in
    match r with
    | (None, _) => Ret (0, g)
    | (Some pos, i') =>
      if negb (purpose_eqb (it_purpose i') P_answer) then Ret (0, g)
      else
        let! x :=
          (if it_type i' =? 5 then gen_copy_cname nf m pos (it_type i') (it_klass i') g
           else if it_type i' =? 1 then gen_copy_a nf m pos (it_type i') (it_klass i') g
           else if it_type i' =? 28 then gen_copy_aaaa nf m pos (it_type i') (it_klass i') g
           else Ret (0, g)) in
        let '(e, g') := x in
        if e =? 0 then copy_answers fuel' nf m dlen i' g'
        else Ret (if it_type i' =? 5 then -321 else if it_type i' =? 1 then -328 else -335, g')
    end
  end.

(** HostsUtils_CombineRecursedResponse, hostsutils.c 320-440.  The buffer that is given for both the header and the new entity is [c]; [m] and [len] are
    RecursedEntity and EntityLength, [target] is RecursedDomain.  After an error the entity is what has been built so far. *)
Definition combine (fuel nf : nat) (c : mctx) (m : list Z) (len : nat) (target : list Z) : outcome (Z * mctx) :=
  let h := c_h c in
  let! id := rd16 (c_entity c) 0 in
  match parser_init len false with
  | None => Ret (-268, c)
  | Some (_, dlen) =>
    let! i := iter_init m P_unknown 0 0 0 in
    let! g0 := gen_init (c_entity c) in
    let! g1 := copy_header m false g0 in
    let! g2 := set_identifier id g1 in
    let! r := gen_question (h_domain h) (h_type h) 1 g2 in
    let '(e, g3) := r in
    if negb (e =? 0) then Ret (-298, mk_ctx h (g_buf g3))
    else
      let g4 := next_purpose g3 in
      if negb (purpose_eqb (cur_purpose g4) P_answer) then Ret (-303, mk_ctx h (g_buf g4))
      else
        let! r := gen_cname (h_domain h) target 60 g4 in
        let '(e, g5) := r in
        if negb (e =? 0) then Ret (-309, mk_ctx h (g_buf g5))
        else
          let! ia := goto_answers fuel m dlen i in
          let! r := copy_answers fuel nf m dlen ia g5 in
          let '(e, g6) := r in
          if negb (e =? 0) then Ret (e, mk_ctx h (g_buf g6))
          else
            let! r := (if h_edns h then let! ga := to_additional fuel g6 in gen_edns 1280 ga else Ret (0, g6)) in
            let '(e, g7) := r in
            if negb (e =? 0) then Ret (-351, mk_ctx h (g_buf g7))
            else
              let! r := dns_compress fuel (g_buf g7) (g_itr g7) in
              let '(n, b) := r in
              if n <? 0 then Ret (-343, mk_ctx h b) else Ret (0, with_entity c n b)
  end.

(** ModuleContext_GenAnswerHeaderAndRemove, mcontext.c 83-115, for Input and Output in different places. *)
Definition mc_answer_to (b : bst mctx) (input output : mctx) : outcome (Z * mctx * bst mctx) :=
  let! r := mc_find b input in
  match r with
  | None => Ret (-60, output, b)
  | Some a =>
    let! n := deref b a in
    let h := c_h (n_data n) in
    let out := mk_ctx (mk_ih (h_parent h) (h_reqtcp h) (h_time h) (h_back h) (h_sock h) (h_domain h) (h_hash h) (h_type h)
                             (h_rethdr h) (h_edns (c_h input)) (h_len (c_h input)) (h_agent h)) (c_entity output) in
    let b1 := store b a (mk_node (n_par n) (n_left n) (n_right n) (mk_ctx (ih_reset h) (c_entity (n_data n)))) in
    let! b2 := bst_delete b1 a in
    Ret (0, out, b2)
  end.

Section Thread.
(** [fn] as in Hosts_Model; the hosts files [st], [dy] as they are at the moment (None: not loaded); [hdr], [arr] as in Udpm_Model; [hsz] is
    sizeof(IHeader); OuterSocket and OuterAddress, hosts.c 127-128; what MMgr_Send leaves in its buffer. *)
Context (fn : list Z -> list Z -> bool) (hdr : iheader -> list Z) (arr : list Z -> list Z) (hsz : nat) (osock : Z) (oaddr : list Z) (leave : ubuf -> ubuf).
Context (fuel nf : nat).

(** The variables of Hosts_SocketLoop, hosts.c 125-145: Context, InnerBuffer, OuterBuffer. *)
Record rst := mk_rst { rs_tab : bst mctx; rs_in : mctx; rs_out : ubuf }.
(** What a turn of the loop does: nothing, a query given to MMgr_Send, a message to a client with the result of the send. hosts.c 189-292. *)
Inductive rev := RV_nothing | RV_asked (c : mctx) | RV_sent (s : sent) (code : Z).

(** A datagram on InnerSocket, hosts.c 189-243: the header and the identifier that Hosts_Try sent (hosts.c 70-76); [rnd] is rand(), [now] time(NULL).
    RecursedDomain has room for 128 bytes and the terminator. *)
Definition inner_turn (st dy : option hosts) (s : rst) (h : iheader) (id : list Z) (rnd now : Z) : outcome (rev * rst) :=
  let c := mk_ctx h (id ++ skipn (length id) (c_entity (rs_in s))) in
  let! t := both_cname fn st dy (h_domain h) in
  match t with
  | None => Ret (RV_nothing, mk_rst (rs_tab s) c (rs_out s))
  | Some name =>
    if Nat.ltb 128 (length name) then UBW
    else
      let! q := generate_query fuel nf (rs_out s) osock oaddr (match h_back h with None => true | Some _ => false end) (rnd mod 65536) name (h_type h) in
      let '(code, b) := q in
      if negb (code =? 0) then Ret (RV_nothing, mk_rst (rs_tab s) c b)
      else
        let! r := mc_add (rs_tab s) c now in
        let '(a, tab) := r in
        let h' := set_parent (u_h b) (Some a) in
        Ret (RV_asked (mk_ctx h' (u_mem b)), mk_rst tab (set_time c now) (leave (mk_ubuf h' (u_dom b) (u_mem b))))
  end.

(** A datagram on OuterSocket, hosts.c 245-292: header and message, as MsgContext_SendBack sends them (iheader.c 159-206); [n] is what send returns for the
    reply.  A NULL Parent counts as a wild read; nodes that have been given back to the table stay readable. *)
Definition outer_turn (s : rst) (h : iheader) (msg : list Z) (n : Z) : outcome (rev * rst) :=
  let bytes := firstn (length (u_mem (rs_out s))) msg in
  let mem := bytes ++ skipn (length bytes) (u_mem (rs_out s)) in
  let out := mk_ubuf h (arr (h_domain h)) mem in
  match h_parent h with
  | None => UBR
  | Some a =>
    let! nd := deref (rs_tab s) a in
    let! id := rdn (c_entity (n_data nd)) 0 2 in
    let! e1 := bwrite (c_entity (rs_in s)) 0 id in
    let! r := mc_answer_to (rs_tab s) (n_data nd) (mk_ctx (c_h (rs_in s)) e1) in
    let '(code, c, tab) := r in
    if negb (code =? 0) then Ret (RV_nothing, mk_rst tab c out)
    else
      let! k := combine fuel nf c mem (hsz + length bytes) (h_domain h) in
      let '(code, c2) := k in
      if negb (code =? 0) then Ret (RV_nothing, mk_rst tab c2 out)
      else let! t := send_back hdr c2 n in Ret (RV_sent (fst t) (snd t), mk_rst tab c2 out)
  end.

(** The loop, hosts.c 174-294: a datagram on one of the sockets, or none within the time (the table is swept, without a callback). *)
Inductive rop := RInner (st dy : option hosts) (h : iheader) (id : list Z) (rnd now : Z) | ROuter (h : iheader) (msg : list Z) (n : Z) | RIdle (now : Z).
(** One turn of the loop, hosts.c 174-294. *)
Definition rturn (s : rst) (o : rop) : outcome (rev * rst) :=
  match o with
  | RInner st dy h id rnd now => inner_turn st dy s h id rnd now
  | ROuter h msg n => outer_turn s h msg n
  | RIdle now => let! r := mc_sweep (rs_tab s) now in Ret (RV_nothing, mk_rst (snd r) (rs_in s) (rs_out s))
  end.
(** The turns of the loop, hosts.c 174-294. *)
Fixpoint rturns (s : rst) (os : list rop) : outcome (list rev * rst) :=
  match os with
  | [] => Ret ([], s)
  | o :: os' => let! r := rturn s o in let! r' := rturns (snd r) os' in Ret (fst r :: fst r', snd r')
  end.
End Thread.
