(** Model of the messages with which the hosts files answer (hostsutils.c 44-256, hosts.c 43-139). *)
From Verif Require Import Base Name_Model Parser_Model Gen_Model Sht_Model Hosts_Model Mctx_Model Iheader_Model Cht_Model Cache_Model Fetch_Model Udpm_Model.

(** HostsUtils_Generate, hostsutils.c 44-120, for the record [a] that hosts_answer has found (GoodIpList_Get included): owner "a", TTL 60.
    The return value is 0 or not, as its caller hostscontainer.c 135-138 distinguishes no more. *)
Definition put_answer (a : hanswer) (g : gen) : outcome (Z * gen) :=
  match a with
  | AN_cname t => gen_cname [97] t 60 g
  | AN_a b => gen_raw [97] 1 1 b 60 g
  | AN_aaaa b => gen_raw [97] 28 1 b 60 g
  end.

(** HostsUtils_Try, hostsutils.c 189-251: the message for the record [a], made behind the query in the buffer and then moved to its place.
    False is HOSTSUTILS_TRY_NONE.  The entity is the whole buffer behind the header; a negative EntityLength counts as a wild read. *)
Definition with_entity (c : mctx) (len : Z) (m : list Z) : mctx :=
  let h := c_h c in
  mk_ctx (mk_ih (h_parent h) (h_reqtcp h) (h_time h) (h_back h) (h_sock h) (h_domain h) (h_hash h) (h_type h) (h_rethdr h) (h_edns h) len (h_agent h)) m.
(** hostsutils.c 189-251, see above. *)
Definition hosts_message (fuel : nat) (c : mctx) (a : hanswer) : outcome (bool * mctx) :=
  let mem := c_entity c in
  let len := Z.to_nat (h_len (c_h c)) in
  if h_len (c_h c) <? 0 then UBR
  else
    let! o := gen_init_copy fuel (skipn len mem) mem len true in
    match o with
    | None => Ret (false, c)
    | Some g0 =>
      let! g1 := answer_flags g0 in
      let g := next_purpose g1 in
      let none (b : list Z) := Ret (false, mk_ctx (c_h c) (firstn len mem ++ b)) in
      if negb (purpose_eqb (cur_purpose g) P_answer) then none (g_buf g)
      else
        let! r := put_answer a g in
        let '(e, g2) := r in
        if negb (e =? 0) then none (g_buf g2)
        else
          let! r2 := (if h_edns (c_h c) then let! ga := to_additional fuel g2 in gen_edns 1280 ga else Ret (0, g2)) in
          let '(e2, g3) := r2 in
          if negb (e2 =? 0) then none (g_buf g3)
          else
            let! r3 := dns_compress fuel (g_buf g3) (g_itr g3) in
            let '(n, b) := r3 in
            if n <? 0 then none b
            else
              let! moved := rdn b 0 (Z.to_nat n) in
              let! m2 := bwrite (firstn len mem ++ b) 0 moved in
              Ret (true, with_entity c n m2)
    end.

Section Get.
(** [fn], [good] as in Hosts_Model; [hdr] as in Udpm_Model. *)
Context (fn : list Z -> list Z -> bool) (good : list Z -> option (list Z)) (hdr : iheader -> list Z) (fuel : nat).

(** The results of HostsUtils_Try, hostsutils.h 11-16. *)
Inductive tryr := R_blocked | R_none | R_recursed | R_ok.

(** HostsUtils_Try, hostsutils.c 122-256, up to MsgContext_SendBack; the message is set up only if there is a record to be put into it (in the code
    it is set up, behind the query, before the record is looked for the second time). *)
Definition utils_try_msg (h : hosts) (c : mctx) : outcome (tryr * mctx) :=
  let! t := utils_try fn good h (h_domain (c_h c)) (h_type (c_h c)) in
  match t with
  | T_blocked => Ret (R_blocked, c)
  | T_none => Ret (R_none, c)
  | T_recursed => Ret (R_recursed, c)
  | T_answer a => let! r := hosts_message fuel c a in Ret (if fst r : bool then R_ok else R_none, snd r)
  end.
(** StaticHosts_Try statichosts.c 71-79, DynamicHosts_Try dynamichosts.c 283-302. *)
Definition opt_try_msg (h : option hosts) (c : mctx) : outcome (tryr * mctx) :=
  match h with None => Ret (R_none, c) | Some h => utils_try_msg h c end.
(** Hosts_Try_Inner, hosts.c 24-35. *)
Definition try_inner_msg (st dy : option hosts) (c : mctx) : outcome (tryr * mctx) :=
  let! r := opt_try_msg st c in
  match r with (R_none, c1) => opt_try_msg dy c1 | _ => Ret r end.

(** What leaves the function: a message to the client with the result of the send (hosts.c 93, hostsutils.c 250), or the header and the identifier to the thread
    that follows aliases (hosts.c 70-76). *)
Inductive hev := H_nothing | H_sent (s : sent) (code : Z) | H_inner (h : iheader) (id : list Z).

(** Hosts_Try, hosts.c 43-84; [inner]: the sendto succeeds.  What is sent to the client is listed by [hosts_get]. *)
Definition hosts_try_msg (block6 : bool) (st dy : option hosts) (c : mctx) (inner : bool) : outcome (tryr * hev * mctx) :=
  let name := h_domain (c_h c) in
  let! b :=
    (if block6 && (h_type (c_h c) =? 28) then
       let! a := both_exist fn st dy name HT_a in if a : bool then Ret true else both_exist fn st dy name HT_good
     else Ret false) in
  if b : bool then Ret (R_blocked, H_nothing, c)
  else
    let! x := both_exist fn st dy name HT_exclude in
    if x : bool then Ret (R_none, H_nothing, c)
    else
      let! r := try_inner_msg st dy c in
      match r with
      | (R_recursed, c1) => let! id := rdn (c_entity c1) 0 2 in Ret (if inner then R_recursed else R_none, if inner then H_inner (c_h c1) id else H_nothing, c1)
      | (t, c1) => Ret (t, H_nothing, c1)
      end.

(** Hosts_Get, hosts.c 86-117, without the log and the statistic; [n]: what send returns to MsgContext_SendBack (whose result is ignored).
    In the code the reply is sent from HostsUtils_Try (hostsutils.c 249). *)
Definition hosts_get (block6 : bool) (st dy : option hosts) (c : mctx) (inner : bool) (n : Z) : outcome (Z * hev * mctx) :=
  let! r := hosts_try_msg block6 st dy c inner in
  match r with
  | (R_blocked, _, c1) =>
    let! m := refuse_flags (c_entity c1) in
    let! s := send_back hdr (mk_ctx (c_h c1) m) n in
    Ret (0, H_sent (fst s) (snd s), mk_ctx (c_h c1) m)
  | (R_none, _, c1) => Ret (-126, H_nothing, c1)
  | (R_recursed, e, c1) => Ret (0, e, c1)
  | (R_ok, _, c1) => let! s := send_back hdr c1 n in Ret (0, H_sent (fst s) (snd s), c1)
  end.
End Get.
