(** Model of the message parser and of its record iterator (dnsparser.c 195-474, 1263-1323). *)
From Verif Require Import Base Name_Model.

(** GET_16_BIT_U_INT / GET_32_BIT_U_INT on the packet memory, dnsparser.h 8-9. *)
Definition rd16 (m : list Z) (i : nat) : outcome Z :=
  match get16 m i with Some v => Ret v | None => UBR end.
(** GET_32_BIT_U_INT on the packet memory, dnsparser.h 9. *)
Definition rd32 (m : list Z) (i : nat) : outcome Z :=
  match get32 m i with Some v => Ret v | None => UBR end.

(** DnsRecordPurpose, dnsparser.h 170-177. *)
Inductive purpose := P_unknown | P_question | P_answer | P_nameserver | P_additional.
(** Comparison of purposes, dnsparser.c 257-282 and 437-451. *)
Definition purpose_eqb (a b : purpose) : bool :=
  match a, b with
  | P_unknown, P_unknown | P_question, P_question | P_answer, P_answer
  | P_nameserver, P_nameserver | P_additional, P_additional => true
  | _, _ => false
  end.

(** DnsSimpleParser_Init, dnsparser.c 284-299: the offset of the message inside the received bytes
    and its length ([None] is the -1 result).  The flag accessors (206-239) are not part of it. *)
Definition parser_init (len : nat) (is_tcp : bool) : option (nat * Z) :=
  if Nat.ltb len 12 then None
  else if is_tcp then Some (2%nat, Z.of_nat len - 2) else Some (0%nat, Z.of_nat len).

(** DNSGetHostName(NULL, INT_MAX, pos, NULL, 0): dnsparser.c 7, 384-389.  The iteration bound is
    never hit (theorem C04_jump_terminates). *)
Definition name_extent (m : list Z) (pos : nat) : outcome Z :=
  let! r := name_loop (S (length m)) false 0 m pos None 0 0 false in
  Ret (match fst r with Some n => Z.of_nat n | None => -1 end).

(** DNSJumpOverName, dnsparser.c 5-8. *)
Definition jump (m : list Z) (pos : nat) : outcome nat :=
  let! n := name_extent m pos in Ret (Z.to_nat (Z.of_nat pos + n)).

(** DNSGetRecordType, DNSGetRecordClass, DNSGetTTL, DNSGetResourceDataLength,
    DNSGetResourceDataPos: dnsparser.h 31-35, 44, 50. *)
Definition rec_type (m : list Z) (pos : nat) : outcome Z := let! p := jump m pos in rd16 m p.
(** DNSGetRecordClass, dnsparser.h 50. *)
Definition rec_class (m : list Z) (pos : nat) : outcome Z := let! p := jump m pos in rd16 m (p + 2).
(** DNSGetTTL, dnsparser.h 31. *)
Definition rec_ttl (m : list Z) (pos : nat) : outcome Z := let! p := jump m pos in rd32 m (p + 4).
(** DNSGetResourceDataLength, dnsparser.h 33. *)
Definition rec_dlen (m : list Z) (pos : nat) : outcome Z := let! p := jump m pos in rd16 m (p + 8).
(** DNSGetResourceDataPos, dnsparser.h 35. *)
Definition rec_dpos (m : list Z) (pos : nat) : outcome nat := let! p := jump m pos in Ret (p + 10)%nat.

(** struct _DnsSimpleParserIterator, dnsparser.h 224-251 (data members). *)
Record iter := mk_iter {
  it_pos : option nat;       (* CurrentPosition, None is NULL *)
  it_rec : Z;                (* RecordPosition *)
  it_qf : Z; it_ql : Z; it_af : Z; it_al : Z; it_nf : Z; it_nl : Z; it_df : Z; it_dl : Z;
  it_all : Z;                (* AllRecordCount *)
  it_purpose : purpose; it_type : Z; it_klass : Z; it_dlen : Z }.

(** The iterator at its end, dnsparser.c 366-435. *)
Definition iter_stop (i : iter) : iter :=
  mk_iter None 0 (it_qf i) (it_ql i) (it_af i) (it_al i) (it_nf i) (it_nl i) (it_df i) (it_dl i)
          (it_all i) (it_purpose i) (it_type i) (it_klass i) (it_dlen i).
(** The iterator after a step, dnsparser.c 366-435. *)
Definition iter_info (i : iter) (pos : option nat) (rec : Z) (p : purpose) (ty kl dl : Z) : iter :=
  mk_iter pos rec (it_qf i) (it_ql i) (it_af i) (it_al i) (it_nf i) (it_nl i) (it_df i) (it_dl i)
          (it_all i) p ty kl dl.

(** DnsSimpleParserIterator_Init, dnsparser.c 1268-1323.  The record informations are not
    initialised by the code; the model takes arbitrary values for them. *)
Definition iter_init (m : list Z) (p0 : purpose) (ty0 kl0 dl0 : Z) : outcome iter :=
  let! qd := rd16 m 4 in
  let! an := rd16 m 6 in
  let! ns := rd16 m 8 in
  let! ar := rd16 m 10 in
  let qf := if qd =? 0 then 0 else 1 in
  let af := if an =? 0 then 0 else qf + qd in
  let nf := if ns =? 0 then 0 else qf + qd + an in
  let df := if ar =? 0 then 0 else qf + qd + an + ns in
  Ret (mk_iter None 0 qf (qf + qd - 1) af (af + an - 1) nf (nf + ns - 1) df (df + ar - 1)
               (qd + an + ns + ar) p0 ty0 kl0 dl0).

(** DnsSimpleParserIterator_DeterminePurpose, dnsparser.c 327-364. *)
Definition determine_purpose (i : iter) (r : Z) : purpose :=
  if negb (it_qf i =? 0) && (it_qf i <=? r) && (r <=? it_ql i) then P_question
  else if negb (it_af i =? 0) && (it_af i <=? r) && (r <=? it_al i) then P_answer
  else if negb (it_nf i =? 0) && (it_nf i <=? r) && (r <=? it_nl i) then P_nameserver
  else if negb (it_df i =? 0) && (it_df i <=? r) && (r <=? it_dl i) then P_additional
  else P_unknown.

(** dnsparser.c 405-434: the checks and the update after the position was advanced. *)
Definition iter_at (m : list Z) (dlen : Z) (i : iter) (pos : nat) (rec : Z)
  : outcome (option nat * iter) :=
  if (it_all i <? rec) || (dlen <? Z.of_nat pos) then Ret (None, iter_stop i)
  else
    let p := determine_purpose i rec in
    let! ty := rec_type m pos in
    let! kl := rec_class m pos in
    if negb (purpose_eqb p P_unknown) && negb (ty =? 0) && negb (kl =? 0)
    then let! dl := (if purpose_eqb p P_question then Ret (it_dlen i) else rec_dlen m pos) in
         Ret (Some pos, iter_info i (Some pos) rec p ty kl dl)
    else Ret (None, iter_stop (iter_info i None 0 p ty kl (it_dlen i))).

(** DnsSimpleParserIterator_Next, dnsparser.c 366-435. *)
Definition iter_next (m : list Z) (dlen : Z) (i : iter) : outcome (option nat * iter) :=
  match it_pos i with
  | None => iter_at m dlen i 12 1
  | Some pos =>
    if it_rec i <? it_all i then
      let ex := if purpose_eqb (it_purpose i) P_question then 4 else 10 + it_dlen i in
      let! n := name_extent m pos in
      let full := n + ex in
      if full <? ex then Ret (None, i)
      else iter_at m dlen i (Z.to_nat (Z.of_nat pos + full)) (it_rec i + 1)
    else Ret (None, iter_stop i)
  end.

(** What a caller sees of one record: position, section, type, class, and for resource records the
    TTL (GetTTL, 1263-1266), the data length and the position of the data (RowData, 466-474). *)
Record rec_view := mk_view {
  v_pos : nat; v_purpose : purpose; v_type : Z; v_class : Z; v_rr : option (Z * Z * nat) }.

(** What the iterator offers about its record: dnsparser.c 453-474 and 1263-1266. *)
Definition view_of (m : list Z) (i : iter) (pos : nat) : outcome rec_view :=
  if purpose_eqb (it_purpose i) P_question
  then Ret (mk_view pos (it_purpose i) (it_type i) (it_klass i) None)
  else let! ttl := rec_ttl m pos in
       let! dp := rec_dpos m pos in
       Ret (mk_view pos (it_purpose i) (it_type i) (it_klass i) (Some (ttl, it_dlen i, dp))).

(** The loop "while( i.Next(&i) != NULL )", e.g. dnsparser.c 268, dnsgenerator.c 820. *)
Fixpoint walk (fuel : nat) (m : list Z) (dlen : Z) (i : iter) : outcome (list rec_view) :=
  match fuel with
  | O => Fuel
  | S fuel' =>
    let! r := iter_next m dlen i in
    match r with
    | (None, _) => Ret []
    | (Some pos, i') =>
      let! v := view_of m i' pos in
      let! vs := walk fuel' m dlen i' in
      Ret (v :: vs)
    end
  end.

(** DnsSimpleParserIterator_GotoAnswers, dnsparser.c 437-451. *)
Fixpoint goto_loop (fuel : nat) (m : list Z) (dlen : Z) (i : iter) : outcome iter :=
  match fuel with
  | O => Fuel
  | S fuel' =>
    let! r := iter_next m dlen i in
    match r with
    | (None, i') => Ret i'
    | (Some _, i') => if it_rec i' =? it_ql i' then Ret i' else goto_loop fuel' m dlen i'
    end
  end.
(** DnsSimpleParserIterator_GotoAnswers, dnsparser.c 437-451. *)
Definition goto_answers (fuel : nat) (m : list Z) (dlen : Z) (i : iter) : outcome iter :=
  let i0 := iter_info i None (it_rec i) (it_purpose i) (it_type i) (it_klass i) (it_dlen i) in
  if 0 <? it_qf i0 then goto_loop fuel m dlen i0 else Ret i0.

(** DnsSimpleParser_HasType, dnsparser.c 257-282; type/class 0 and P_unknown are wildcards for
    purpose and class. *)
Fixpoint has_type_loop (fuel : nat) (m : list Z) (dlen : Z) (i : iter) (p : purpose) (kl ty : Z)
  : outcome bool :=
  match fuel with
  | O => Fuel
  | S fuel' =>
    let! r := iter_next m dlen i in
    match r with
    | (None, _) => Ret false
    | (Some _, i') =>
      if (purpose_eqb p P_unknown || purpose_eqb (it_purpose i') p)
         && ((kl =? 0) || (it_klass i' =? kl)) && (it_type i' =? ty)
      then Ret true else has_type_loop fuel' m dlen i' p kl ty
    end
  end.
