(** What an answer from the hosts files is. *)
From Verif Require Import Base Name_Spec Parser_Spec Gen_Spec Hosts_Model Mctx_Model Udpm_Model.

(** The record that a line of a hosts file stands for, of the name [n], for a minute. *)
Inductive host_record (n : list (list Z)) : hanswer -> rr -> Prop :=
| HR_alias c : name_ok c -> c <> [] -> (length (dotted c) <= 253)%nat -> host_record n (AN_cname (dotted c)) (mk_rr (plain n) 5 1 60 (wire c))
| HR_v4 b : length b = 4%nat -> Forall is_byte b -> host_record n (AN_a b) (mk_rr (plain n) 1 1 60 b)
| HR_v6 b : length b = 16%nat -> Forall is_byte b -> host_record n (AN_aaaa b) (mk_rr (plain n) 28 1 60 b).

(** The message [msg] as it is sent to the client whose query has the header [h]: on a connection with its length in front, to an address as it is, behind
    the header [now] for the program's own queries that ask for it. *)
Definition sent_to (hdr : iheader -> list Z) (h now : iheader) (msg : list Z) : sent :=
  mk_sent (h_sock h) (h_back h)
    (match h_back h with None => be16 (Z.of_nat (length msg) mod 65536) ++ msg | Some _ => (if h_rethdr h then hdr now else []) ++ msg end).
(** The header [h] of a message of [n] bytes. *)
Definition with_length (h : iheader) (n : nat) : iheader :=
  mk_ih (h_parent h) (h_reqtcp h) (h_time h) (h_back h) (h_sock h) (h_domain h) (h_hash h) (h_type h) (h_rethdr h) (h_edns h) (Z.of_nat n) (h_agent h).
(** The query in [c'] is that in [c]: the header, and the bytes of the message. *)
Definition same_query (c c' : mctx) : Prop :=
  c_h c' = c_h c /\ firstn (Z.to_nat (h_len (c_h c))) (c_entity c') = firstn (Z.to_nat (h_len (c_h c))) (c_entity c).
