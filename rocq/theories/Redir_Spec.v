(** What the thread that follows the aliases of the hosts files is to do. *)
From Verif Require Import Base Hash_Model Name_Spec Parser_Model Parser_Spec Gen_Spec Compress_Spec Fetch_Spec Bst_Model Mctx_Model Mctx_Spec Iheader_Model Iheader_Spec Redir_Model.

(** The query for the name [c], of type [type] and with the identification [id]: recursion desired, one question. *)
Definition target_query (id : Z) (c : list (list Z)) (type : Z) : message := mk_msg (be16 id ++ [1; 0]) [mk_q (plain c) type 1] [] [] [].

(** The header of the query for [c]: to be answered at the thread's own socket, with the header in front; [par] is where the client's query is kept, [tcp] says
    whether the client is on a connection. *)
Definition target_header (h : iheader) (par : option nat) (tcp : bool) (sock : Z) (addr : list Z) (c : list (list Z)) (type : Z) : iheader :=
  mk_ih par tcp (h_time h) (Some addr) sock (map small (dotted c)) (bkdr (map small (dotted c))) type true false (Z.of_nat (length (wire c) + 16)) redirect_agent.

(** The client's query [q] is in the table, at the address [a]. *)
Definition holds (b : bst mctx) (a : nat) (q : mctx) : Prop :=
  exists l, bst_enum b (fun (acc : list (nat * mctx)) x c => (acc ++ [(x, c)], false)) [] = Ret l /\ In (a, q) l.

(** What the turns of a history are assumed to be: hashes are 32 bit numbers, identifications two bytes, messages bytes. *)
Definition rop_ok (o : rop) : Prop :=
  match o with
  | RInner _ _ h id _ _ => 0 <= h_hash h < 4294967296 /\ length id = 2%nat /\ Forall is_byte id
  | ROuter _ msg _ => Forall is_byte msg
  | RIdle _ => True
  end.

(** Equal but for the case of letters. *)
Definition same_letters (a b : list (list Z)) : Prop := map (map small) a = map (map small) b.
(** Labels of bytes below 192 without dots. *)
Definition low (ls : list (list Z)) : Prop := Forall (Forall (fun c => 0 < c < 192 /\ c <> 46)) ls.

(** Where the data of the record [r] at [o] begin. *)
Definition data_at (o : nat) (r : rr) : nat := (o + length (enc_rr r) - length (r_data r))%nat.
(** [taken R o rs news]: of the records [rs], which lie from [o] on in the message [R], those of the types CNAME, A and AAAA are taken over as [news]:
    the same type, time to live and data (for an alias: the name without compression), with an owner that is the same but for the case of letters. *)
Inductive taken (R : message) : nat -> list rr -> list rr -> Prop :=
| K_end o : taken R o [] []
| K_other o r rs news : r_type r <> 5 -> r_type r <> 1 -> r_type r <> 28 -> taken R (o + length (enc_rr r)) rs news -> taken R o (r :: rs) news
| K_alias o r rs news own ls w c v : r_type r = 5 -> r_class r = 1 -> denotes 63 (enc_msg R) o ls w -> low ls -> same_letters own ls ->
    denotes 63 (enc_msg R) (data_at o r) c v -> low c -> taken R (o + length (enc_rr r)) rs news ->
    taken R o (r :: rs) (mk_rr (plain own) 5 1 (r_ttl r) (wire c) :: news)
| K_address o r rs news own ls w : r_type r = 1 /\ length (r_data r) = 4%nat \/ r_type r = 28 /\ length (r_data r) = 16%nat -> r_class r = 1 ->
    denotes 63 (enc_msg R) o ls w -> low ls -> same_letters own ls -> taken R (o + length (enc_rr r)) rs news ->
    taken R o (r :: rs) (mk_rr (plain own) (r_type r) 1 (r_ttl r) (r_data r) :: news).

(** The alias of the name [dom], for a minute. *)
Definition alias_record (dom tgt : list (list Z)) : rr := mk_rr (plain dom) 5 1 60 (wire tgt).

(** The message for the client without any compression: its identification, the flags of the reply [R], its question, the records [rs]. *)
Definition full_redirect (id : list Z) (R : message) (dom : list (list Z)) (type : Z) (edns : bool) (rs : list rr) : message :=
  mk_msg (id ++ skipn 2 (m_idflags R)) [mk_q (plain dom) type 1] rs [] (if edns then [opt_record] else []).
(** [g] is that message, with owner names that may be compressed. *)
Definition redirected (id : list Z) (R : message) (dom : list (list Z)) (type : Z) (edns : bool) (rs : list rr) (g : message) : Prop :=
  good_msg g /\ m_idflags g = id ++ skipn 2 (m_idflags R) /\ m_qs g = [mk_q (plain dom) type 1] /\ m_ns g = [] /\ m_ar g = (if edns then [opt_record] else []) /\
  Forall2 same_but_name rs (m_an g) /\
  Forall2 (fun r v => exists w, denotes 63 (enc_msg g) (v_pos v) (en_labels (r_name r)) w) rs (view_rrs P_answer (12 + qs_len (m_qs g)) (m_an g)).

(** The content of an array of [n] bytes. *)
Definition array (n : nat) (l : list Z) : Prop := length l = n /\ Forall is_byte l.
(** The thread as it starts: nothing pending; whatever is in its buffers. *)
Definition r_started (n : nat) (s : rst) : Prop := rs_tab s = bst_init /\ array n (c_entity (rs_in s)) /\ ubuf_ok n (rs_out s).
