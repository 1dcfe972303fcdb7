(** What the table of pending queries should do, on a plain collection of pending queries. *)
From Verif Require Import Base Hash_Model Bst_Model Mctx_Model.
Require Import Permutation.

(** A pending query and a reply agree in message id and in the hash of the name. *)
Definition matches (q r : mctx) : Prop := ctx_id q = ctx_id r /\ h_hash (c_h q) = h_hash (c_h r).

(** The reply [r] addressed to the client of [q]: the reply's message, length and EDNS flag, everything else
    (client address, socket, ...) from the query. *)
Definition addressed (q r : mctx) : mctx :=
  let h := c_h q in
  mk_ctx (mk_ih (h_parent h) (h_reqtcp h) (h_time h) (h_back h) (h_sock h) (h_domain h) (h_hash h) (h_type h) (h_rethdr h)
                (h_edns (c_h r)) (h_len (c_h r)) (h_agent h)) (c_entity r).

(** The query [c], registered at time [now]. *)
Definition stamped (c : mctx) (now : Z) : mctx :=
  let h := c_h c in
  mk_ctx (mk_ih (h_parent h) (h_reqtcp h) now (h_back h) (h_sock h) (h_domain h) (h_hash h) (h_type h) (h_rethdr h)
                (h_edns h) (h_len h) (h_agent h)) (c_entity c).

(** Older than two seconds. *)
Definition expired (now : Z) (q : mctx) : Prop := now - h_time (c_h q) > 2.

(** One step on the collection of pending queries. *)
Inductive mspec (pending : list mctx) : mop -> mevent -> list mctx -> Prop :=
| S_query c now pending' : Permutation pending' (stamped c now :: pending) -> mspec pending (MQuery c now) (EAdded (stamped c now)) pending'
| S_delivered r q pending' : Permutation pending (q :: pending') -> matches q r ->
    mspec pending (MReply r) (EDelivered (addressed q r)) pending'
| S_ignored r pending' : Permutation pending' pending -> mspec pending (MReply r) EIgnored pending'
| S_sweep now out pending' : Permutation pending (map fst out ++ pending') ->
    Forall (expired now) (map fst out) -> Forall (fun q => ~ expired now q) pending' ->
    map snd out = map Z.of_nat (seq 1 (length out)) ->
    mspec pending (MSweep now) (ETimeout out) pending'.

Inductive mtrace : list mctx -> list mop -> list mevent -> list mctx -> Prop :=
| T_nil p : mtrace p [] [] p
| T_cons p o e p1 os es p2 : mspec p o e p1 -> mtrace p1 os es p2 -> mtrace p (o :: os) (e :: es) p2.

(** The content of the table, as an enumeration shows it. *)
Definition table (b : bst mctx) (pending : list mctx) : Prop :=
  exists l, bst_enum b (fun (acc : list mctx) _ c => (acc ++ [c], false)) [] = Ret l /\ Permutation l pending.

(** Hash values of pending queries with the same id lie in one half of the range of hash values. *)
Definition tame (pending : list mctx) : Prop :=
  exists lo : Z -> Z, forall q, In q pending -> 0 <= h_hash (c_h q) < 4294967296 /\
    (h_hash (c_h q) - lo (ctx_id q)) mod 4294967296 < 2147483648.

(** The hash is a 32 bit number (its type in the code). *)
Definition hash_ok (c : mctx) : Prop := 0 <= h_hash (c_h c) < 4294967296.
Definition op_hash_ok (o : mop) : Prop := match o with MQuery c _ | MReply c => hash_ok c | MSweep _ => True end.

(** At every moment of the history [os], started with an empty table, the pending queries are tame. *)
Definition always_tame (os : list mop) : Prop :=
  forall os1 os2 es1 b1 p1, os = os1 ++ os2 -> mc_run bst_init os1 = Ret (es1, b1) -> table b1 p1 -> tame p1.
