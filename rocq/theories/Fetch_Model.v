(** Model of answering a query from the cache (dnscache.c 805-963). *)
From Verif Require Import Base Name_Model Parser_Model Hash_Model Gen_Model Cht_Model Cache_Model.

(** The assignments to the flags of the header, dnscache.c 922-926: Direction = 1, AuthoritativeAnswer = 0, RecursionAvailable = 1,
    ResponseCode = 0, Type = 0.  In the bytes of the message (dnsparser.h 36-66): byte 2 has Direction in bit 7, Type (the opcode) in
    bits 3-6, AuthoritativeAnswer in bit 2; byte 3 has RecursionAvailable in bit 7 and ResponseCode in bits 0-3. *)
Definition answer_flags (g : gen) : outcome gen :=
  let! f2 := rd8 (g_buf g) 2 in
  let! f3 := rd8 (g_buf g) 3 in
  let! b := bwrite (g_buf g) 2 [Z.lor (Z.land f2 3) 128; Z.lor (Z.land f3 112) 128] in
  Ret (mk_gen b (g_itr g) (g_num g)).

Section Fetch.
(** [raw], [ignore] as in Cache_Model; [nf] bounds the loop of DNSGetHostName; [stack] is what the array Name[254] contains before. *)
Context (raw : list Z -> list cnode -> nat -> Z) (ignore : bool) (nf : nat) (stack : list Z).

(** DNSCache_GetByQuestion, dnscache.c 806-876: the question is read from the memory [m] (the query's [len] bytes and what follows). *)
Definition get_by_question (fuel : nat) (c : cache) (m : list Z) (len : nat) (now : Z) (g : gen) : outcome (Z * gen) :=
  let! i := iter_init m P_unknown 0 0 0 in
  let! r := iter_next m (Z.of_nat len) i in
  match r with
  | (None, _) => Ret (-2, g)
  | (Some pos, i') =>
    if negb (purpose_eqb (it_purpose i') P_question) then Ret (-2, g)
    else if negb (it_klass i' =? 1) || negb (valid_type (it_type i')) then Ret (-4, g)
    else
      let! n := get_host_name nf len m pos stack in
      match n with
      | (Some _, Some b) => by_question raw ignore fuel c (cstr b) (it_type i') (it_klass i') now g
      | _ => Ret (-3, g)
      end
  end.

(** DNSCache_FetchFromCache, dnscache.c 879-963, with an initialised cache.  [mem] is the memory from the query's entity on to the end
    of the buffer, [len] is EntityLength, [edns] is EDNSEnabled, [sent]: MsgContext_SendBack succeeds.  The answer is built behind the
    query, then moved to its place.  The result: return value, memory, EntityLength.  What is sent is the memory's first EntityLength
    bytes, and only when the code reaches MsgContext_SendBack (codes 0 and -861). *)
Definition fetch (fuel : nat) (c : cache) (mem : list Z) (len : nat) (edns : bool) (now : Z) (sent : bool) : outcome (Z * list Z * nat) :=
  match parser_init len false with
  | None => Ret (-1, mem, len)
  | Some _ =>
    let! o := gen_init_copy fuel (skipn len mem) mem len true in
    match o with
    | None => Ret (-2, mem, len)
    | Some g0 =>
      let g := next_purpose g0 in
      let m1 := firstn len mem ++ g_buf g in
      if negb (purpose_eqb (cur_purpose g) P_answer) then Ret (-5, m1, len)
      else
        let! r := get_by_question fuel c m1 len now g in
        let '(e, g1) := r in
        if negb (e =? 0) then Ret (-3, firstn len mem ++ g_buf g1, len)
        else
          let! g2 := answer_flags g1 in
          let! r2 := (if edns then let! ga := to_additional fuel g2 in gen_edns 1280 ga else Ret (0, g2)) in
          let '(e2, g3) := r2 in
          if negb (e2 =? 0) then Ret (-4, firstn len mem ++ g_buf g3, len)
          else
            let! r3 := dns_compress fuel (g_buf g3) (g_itr g3) in
            let '(n, b) := r3 in
            if n <? 0 then Ret (-6, firstn len mem ++ b, len)
            else
              let! moved := rdn b 0 (Z.to_nat n) in
              let! m2 := bwrite (firstn len mem ++ b) 0 moved in
              Ret (if sent then 0 else -861, m2, Z.to_nat n)
    end
  end.
End Fetch.
