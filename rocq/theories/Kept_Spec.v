(** What the cache has for a query, whether or not it is what was asked for. *)
From Verif Require Import Base Name_Spec Hash_Model Cht_Model Cache_Model Cache_Spec Alias_Spec Parser_Spec Gen_Spec Fetch_Spec Ns_Spec Hosts_Model Hosts_Spec Mctx_Model Iheader_Spec Iheader_Model Udpm_Model Hmsg_Spec Serve_Model Serve_Spec.

(** [from_cache A now q ql ty edns room L]: a cache with the records [A] answers the query [q] for the name [ql] and the type [ty] with the records [L], which fit into [room] bytes:
    the aliases and the records asked for; or, for the types NS, CNAME and PTR, the aliases and the hosts as further aliases (C63). *)
Inductive from_cache (ignore : bool) (A : list entry) (now : Z) (q : message) (ql : list (list Z)) (ty : Z) (edns : bool) (room : nat) : list rr -> Prop :=
| FC_records als rs : In ty cached_types -> Fetch_Spec.answers ignore A now ql ty als rs -> rs <> [] -> (ty = 5 -> (length rs <= 1)%nat) ->
    (length (enc_msg (full_reply q edns (als ++ rs))) <= room)%nat -> from_cache ignore A now q ql ty edns room (als ++ rs)
| FC_hosts als n hs : In ty [2; 5; 12] -> hosts_for ignore A now ql ty als n hs -> hs <> [] ->
    (length (enc_msg (full_reply q edns (als ++ map (alias_to n) hs))) <= room)%nat -> from_cache ignore A now q ql ty edns room (als ++ chained n hs).

(** [carries c0 g c]: [c] is the context [c0] with the message [g] in place of its own. *)
Definition carries (c0 : mctx) (g : message) (c : mctx) : Prop :=
  c_h c = with_length (c_h c0) (length (enc_msg g)) /\ firstn (length (enc_msg g)) (c_entity c) = enc_msg g.
