(** What a client that sends a query is to get. *)
From Verif Require Import Base Name_Spec Hash_Model Chunk_Spec Filter_Model Filter_Props Mmgr_Model Mmgr_Props Cht_Model Cache_Model Cache_Spec Alias_Spec
  Parser_Spec Gen_Spec Fetch_Spec Hosts_Model Hosts_Spec Mctx_Model Iheader_Spec Iheader_Model Udpm_Model Hmsg_Spec Udpm_Props Hmsg_Props Serve_Model.

(** The configuration as a user sees it: the types that DisabledType denotes; the rules of DisabledDomain and DisabledList; what the two hosts files say about the
    name of the query; the server groups and whether those of the other protocol may be used. *)
Record world := mk_world {
  w_types : list Z; w_rules : list (list Z); w_block6 : bool; w_ts1 : list target; w_ts2 : list target;
  w_groups : list (proto * list (list Z)); w_t2u : bool; w_u2t : bool }.

(** The types that the cache answers, and those it answers wrongly or in part (C63). *)
Definition cached_types : list Z := [1; 28; 65; 16; 15; 5].
Definition other_cached_types : list Z := [2; 12].

Section D.
Context (fn : list Z -> list Z -> bool) (good : list Z -> option (list Z)) (hdr : iheader -> list Z) (ignore : bool).

(** The query is for something that has been disabled. *)
Definition disabled (w : world) (type : Z) (name : list Z) : Prop :=
  In type (w_types w) \/ exists d, In d (w_rules w) /\ covers fn name d.

(** The group [i] is the one to ask (C33): that of the newest rule for the longest enclosing domain with a fitting rule; otherwise that of a matching pattern, "*" last;
    only if no fitting rule covers the name the one given by the identification. *)
Definition group_for (gs : list (proto * list (list Z))) (t2u u2t tcp : bool) (name : list Z) (id : Z) (i : nat) : Prop :=
  (i < length gs)%nat /\
  let fit := fits gs t2u u2t tcp in
  ((exists n r1 r2, rules gs = r1 ++ (n, Some i) :: r2 /\ Chunk_Spec.plain n /\ encloses n name /\ fit i /\ (forall j, In (n, Some j) r2 -> ~ fit j) /\
      (forall d j, In (d, Some j) (rules gs) -> Chunk_Spec.plain d -> encloses d name -> fit j -> (length d <= length n)%nat)) \/
   ((forall d j, In (d, Some j) (rules gs) -> Chunk_Spec.plain d -> encloses d name -> ~ fit j) /\
    exists p, In (p, Some i) (rules gs) /\ ~ Chunk_Spec.plain p /\ fn p name = true /\ fit i /\
      (p = [42] -> forall d j, In (d, Some j) (rules gs) -> ~ Chunk_Spec.plain d -> fn d name = true -> fit j -> d = [42])) \/
   ((forall d j, In (d, Some j) (rules gs) -> Mmgr_Props.applies fn name d -> ~ fit j) /\ Z.of_nat i = id mod Z.of_nat (length gs))).

(** What a cache that holds the records [A] (None: there is no cache) has for the question: aliases and records. *)
Definition kept_for (A : option (list entry)) (now : Z) (ql : list (list Z)) (type : Z) (als rs : list rr) : Prop :=
  match A with
  | None => als = [] /\ rs = []
  | Some A => (In type cached_types /\ answers ignore A now ql type als rs) \/ (~ In type cached_types /\ ~ In type other_cached_types /\ als = [] /\ rs = [])
  end.

(** What the client is due for the query [q] for the name [ql], that the program has as [c]; [name] is [ql] as text in small letters.  In this order: refused as disabled;
    refused or answered from the hosts files, or its alias followed; answered from the cache; sent on as it is to the group to ask.  Exactly one message to the client, or
    none and the query goes on. *)
Inductive due (w : world) (q : message) (ql : list (list Z)) (type : Z) (name : list Z) (als rs : list rr) (c : mctx) : served -> Prop :=
| Due_disabled m : disabled w type name -> refused (enc_msg q) m ->
    due w q ql type name als rs c (mk_served [sent_to hdr (c_h c) (c_h c) m] N_done)
| Due_blocked m : ~ disabled w type name -> verdict good (w_block6 w) (w_ts1 w) (w_ts2 w) type T_blocked -> refused (enc_msg q) m ->
    due w q ql type name als rs c (mk_served [sent_to hdr (c_h c) (c_h c) m] N_done)
| Due_hosts a r g : ~ disabled w type name -> verdict good (w_block6 w) (w_ts1 w) (w_ts2 w) type (T_answer a) -> host_record ql a r -> is_reply q (h_edns (c_h c)) [r] g ->
    due w q ql type name als rs c (mk_served [sent_to hdr (c_h c) (with_length (c_h c) (length (enc_msg g))) (enc_msg g)] N_done)
| Due_alias i1 i2 m : ~ disabled w type name -> verdict good (w_block6 w) (w_ts1 w) (w_ts2 w) type T_recursed -> enc_msg q = i1 :: i2 :: m ->
    due w q ql type name als rs c (mk_served [] (N_alias (c_h c) [i1; i2]))
| Due_cached g : ~ disabled w type name -> verdict good (w_block6 w) (w_ts1 w) (w_ts2 w) type T_none -> rs <> [] -> is_reply q (h_edns (c_h c)) (als ++ rs) g ->
    due w q ql type name als rs c (mk_served [sent_to hdr (c_h c) (with_length (c_h c) (length (enc_msg g))) (enc_msg g)] N_done)
| Due_asked i c' : ~ disabled w type name -> verdict good (w_block6 w) (w_ts1 w) (w_ts2 w) type T_none -> rs = [] -> same_query c c' ->
    group_for (w_groups w) (w_t2u w) (w_u2t w) (match h_back (c_h c) with None => true | Some _ => false end) name (ctx_id c) i ->
    due w q ql type name als rs c (mk_served [] (N_group i c'))
| Due_dropped : ~ disabled w type name -> verdict good (w_block6 w) (w_ts1 w) (w_ts2 w) type T_none -> rs = [] -> w_groups w = [] ->
    due w q ql type name als rs c (mk_served [] N_dropped).

(** The program [k] has been started with the configuration [w]: the options and files from which its tables have been loaded; [name] is the name that is asked for. *)
Definition loaded (parse : list Z -> ipaddr) (k : holds) (w : world) (name : list Z) : Prop :=
  (exists n0 items, types_init n0 items = Ret (k_types k) /\ w_types w = Filter_Props.listed n0 items /\ Forall in_range (Filter_Props.listed n0 items)) /\
  (exists ds files, domains_init ds files = Ret (k_domains k) /\ w_rules w = ds ++ file_rules files /\ Forall file_ok files) /\
  k_block6 k = w_block6 w /\
  (exists l1, table_is parse (k_static k) l1 /\ says fn parse l1 name (w_ts1 w)) /\
  (exists l2, table_is parse (k_dynamic k) l2 /\ says fn parse l2 name (w_ts2 w)) /\
  k_map k = map_of mmap_init (w_groups w) /\ k_t2u k = w_t2u w /\ k_u2t k = w_u2t w.
(** The cache of [k] is what storing and sweeping, [ops], have left in it until [now]. *)
Definition cache_history (raw : list Z -> list cnode -> nat -> Z) (k : holds) (ops : list op) (now : Z) (parallel : bool) (get : list Z -> option ctrl) : Prop :=
  match k_cache k with
  | None => True
  | Some c => exists size slots t0, sized size slots /\ Forall op_ok ops /\ Forall op_wire_ok ops /\
      run raw ignore parallel get (cache_init size slots) ops = Ret c /\ clock t0 ops /\ last_time t0 ops <= now
  end.
(** The query [q] asks one question: for the name [ql], of class IN; it has no answers in it. *)
Definition plain_query (q : message) (q0 : question) (ql : list (list Z)) : Prop :=
  good_msg q /\ m_qs q = [q0] /\ q_name q0 = plain ql /\ name_ok ql /\ ql <> [] /\ (length (dotted ql) <= 253)%nat /\ q_class q0 = 1 /\ m_an q = [].
(** There is room for the reply behind the query, in [n] bytes, and what is in the hosts files for it is a record that can be sent. *)
Definition room (w : world) (q : message) (ql : list (list Z)) (type : Z) (edns : bool) (als rs : list rr) (n : nat) : Prop :=
  (length (enc_msg (full_reply q edns (als ++ rs))) <= n)%nat /\ Z.of_nat n <= 16384 /\
  (forall a, verdict good (w_block6 w) (w_ts1 w) (w_ts2 w) type (T_answer a) -> exists r, host_record ql a r /\ (length (enc_msg (full_reply q edns [r])) <= n)%nat).
(** The header of the message [q], received from [back] at [sock]: the front ends make it (C59). *)
Definition labelled (q : message) (type : Z) (name : list Z) (back : option (list Z)) (sock : Z) (c : mctx) : Prop :=
  exists time agent edns post, c = mk_ctx (mk_ih None false time back sock name (bkdr name) type false edns (Z.of_nat (length (enc_msg q))) agent) (enc_msg q ++ post) /\
    Forall is_byte post /\ (edns = true <-> offers_edns q).
End D.
