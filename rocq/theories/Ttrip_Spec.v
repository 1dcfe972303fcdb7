(** What becomes of a query that goes on to a group of TCP servers. *)
From Verif Require Import Base Iheader_Model Mctx_Model Tcp_Model Tcpm_Model.

(** With [i], the query [c] comes to the module as TcpM_Send hands it over: the header and the message. *)
Definition handed_over (i : tin) (c : mctx) : Prop := i_query i = Some (c_h c, firstn (Z.to_nat (h_len (c_h c))) (c_entity c)).
(** No query of [is] has both the identification and the hash of the name of [c]. *)
Definition alone_in (c : mctx) (is : list tin) : Prop :=
  forall i h bytes, In i is -> i_query i = Some (h, bytes) -> get16 bytes 0 <> Some (ctx_id c) \/ h_hash h <> h_hash (c_h c).
(** Between [k] and [k'], the clock does not show times that are more than two seconds apart. *)
Definition soon (v : tenv) (k k' : kst) : Prop :=
  forall a b, (k_tick k <= a <= k_tick k')%nat -> (k_tick k <= b <= k_tick k')%nat -> v_time v b <= v_time v a + 2.
