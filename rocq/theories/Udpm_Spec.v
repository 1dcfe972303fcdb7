(** What the UDP upstream module does with queries and replies, on a plain collection of pending queries. *)
From Verif Require Import Base Hash_Model Cht_Model Cache_Model Parser_Model Parser_Spec Gen_Spec Rdata_Spec Mctx_Model Mctx_Spec Iheader_Model Iheader_Spec Ip_Spec Ip_Props Udpm_Model Arr_Model.
Require Import Permutation.

(** The message [msg], which is the reply [r], as it is sent to the client of the query [q]: at the query's socket; on a connection with its length in
    front, to an address as it is (behind the header, for the program's own queries that ask for it). *)
Definition to_client (hdr : iheader -> list Z) (q r : mctx) (msg : list Z) : sent :=
  mk_sent (h_sock (c_h q)) (h_back (c_h q))
    (match h_back (c_h q) with
     | None => be16 (Z.of_nat (length msg) mod 65536) ++ msg
     | Some _ => (if h_rethdr (c_h q) then hdr (c_h (addressed q r)) else []) ++ msg
     end).

(** [q] is the query [c], pending since [now]: the same client, name and id; the message may have got an EDNS record. *)
Definition entered (ap : bool) (c : mctx) (now : Z) (q : mctx) : Prop :=
  (ap = false \/ h_edns (c_h c) = true -> q = stamped c now) /\
  let h := c_h c in
  exists edns len m, q = mk_ctx (mk_ih (h_parent h) (h_reqtcp h) now (h_back h) (h_sock h) (h_domain h) (h_hash h) (h_type h) (h_rethdr h) edns len (h_agent h)) m /\
    firstn 4 m = firstn 4 (c_entity c).

(** The queries of a history, as they are pending. *)
Inductive all_entered {A} (ap : bool) : list (@uop A) -> list mctx -> Prop :=
| AE_nil : all_entered ap [] []
| AE_query c now ok os q qs : entered ap c now q -> all_entered ap os qs -> all_entered ap (UQuery c now ok :: os) (q :: qs)
| AE_turn b e os qs : all_entered ap os qs -> all_entered ap (UTurn b e :: os) qs
| AE_sweep now os qs : all_entered ap os qs -> all_entered ap (USweep now :: os) qs.

(** [fates es d t]: by the events [es], the queries [d] got a reply, each from its own reply with the query's id, and the queries [t] timed out. *)
Inductive fates {A} (hdr : iheader -> list Z) : list (@uev A) -> list mctx -> list mctx -> Prop :=
| F_nil : fates hdr [] [] []
| F_queued to code es d t : fates hdr es d t -> fates hdr (VQueued to code :: es) d t
| F_nothing es d t : fates hdr es d t -> fates hdr (VNothing :: es) d t
| F_discarded why es d t : fates hdr es d t -> fates hdr (VDiscarded why :: es) d t
| F_unmatched es d t : fates hdr es d t -> fates hdr (VUnmatched :: es) d t
| F_reply q r msg code es d t : matches q r -> (forall v, get16 msg 0 = Some v -> v = ctx_id q) -> fates hdr es d t ->
    fates hdr (VReplied (to_client hdr q r msg) code :: es) (q :: d) t
| F_timeouts l es d t : fates hdr es d t -> fates hdr (VTimeouts l :: es) d (map fst l ++ t).

(** What the steps of a history are assumed to be: queries carry a 32 bit hash and a message that has at least flags; datagrams are bytes. *)
Definition uop_ok {A} (o : @uop A) : Prop :=
  match o with
  | UQuery c _ _ => hash_ok c /\ 4 <= h_len (c_h c)
  | UTurn _ (SelData (Some x)) => Forall is_byte (x_bytes x)
  | _ => True
  end.

(** The module as it starts: nothing pending; whatever is in the receive buffer. *)
Definition u_started {A} (room : nat) (s : @udpm A) : Prop :=
  u_tab s = Bst_Model.bst_init /\ ubuf_ok room (u_rb s) /\ 0 <= h_hash (u_h (u_rb s)) < 4294967296.

(** A reply is discarded: it is negative and these are not wanted, it has a blocked address, or it offers no EDNS although all queries do. *)
Definition to_discard (neg : bool) (blocked : bool) (ap : bool) (g : message) : Prop :=
  (neg = true /\ nth 3 (m_idflags g) 0 mod 16 <> 0) \/ blocked = true \/ (ap = true /\ ~ offers_edns g).

(** The pending query [q] is one that the reply [g] answers: id and (hash of the) name. *)
Definition answers (g : message) (q : mctx) : Prop :=
  exists name type, asked g name type /\ get16 (m_idflags g) 0 = Some (ctx_id q) /\ h_hash (c_h q) = bkdr name.

(** The address filter that a list of rules is configured to; none without rules. *)
Inductive filter_from : list rule -> option (Ip_Model.ipchunk * bool) -> Prop :=
| ff_none : filter_from [] None
| ff_rules stale rs l c neg : Ip_Props.written rs l -> Ip_Props.add_all stale Ip_Model.ipchunk_init l = Ret c -> filter_from rs (Some (c, neg)).
(** Negative replies are not wanted. *)
Definition no_negative (misc : option (Ip_Model.ipchunk * bool)) : bool := match misc with Some (_, neg) => neg | None => false end.

(** The cache, if there is one, takes in a response. *)
Definition cache_takes (raw : list Z -> list cnode -> nat -> Z) (ignore parallel : bool) (get : list Z -> option ctrl) (nf fuel : nat) (k : option cache) (p : response) : outcome (option cache) :=
  match k with
  | None => Ret None
  | Some c => let! c' := do_event raw ignore parallel get nf fuel c (Got p) in Ret (Some c')
  end.

(** The message that goes to the servers for the query [c]: its own, or, with -ap, its own with an OPT record. *)
Inductive goes_out (ap : bool) (c : mctx) : list Z -> Prop :=
| go_same msg : ap = false \/ h_edns (c_h c) = true -> firstn (length msg) (c_entity c) = msg -> h_len (c_h c) = Z.of_nat (length msg) -> goes_out ap c msg
| go_edns m post : ap = true -> h_edns (c_h c) = false -> good_msg m -> m_qs m <> [] -> m_ar m = [] -> (11 <= length post)%nat ->
    c_entity c = enc_msg m ++ post -> h_len (c_h c) = Z.of_nat (length (enc_msg m)) ->
    goes_out ap c (enc_msg (add_rr P_additional (mk_rr (plain []) 41 1280 0 []) m)).

(** The servers that a query goes to: all of them, or the current one. *)
Definition servers {A} (par : option (list A)) (s : @udpm A) (to : list A) : Prop :=
  match par with
  | Some l => to = l
  | None => exists a, nth_error (al_list (u_addrs s)) (Z.to_nat (al_counter (u_addrs s) mod Z.of_nat (length (al_list (u_addrs s))))) = Some a /\ to = [a]
  end.
(** There are servers. *)
Definition has_servers {A} (par : option (list A)) (s : @udpm A) : Prop := par <> None \/ al_list (u_addrs s) <> [].
