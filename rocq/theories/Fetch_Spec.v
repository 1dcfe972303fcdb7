(** What an answer from the cache is. *)
From Verif Require Import Base Hash_Model Cht_Model Cache_Model Cache_Spec Alias_Spec Name_Spec Parser_Model Parser_Spec Gen_Spec Compress_Spec.

(** [wire_data ty d w]: record data of type [ty] that is stored as [d] is [w] in a message. *)
Inductive wire_data : Z -> list Z -> list Z -> Prop :=
| wd_raw ty d : In ty [1; 28; 65; 16] -> Forall is_byte d -> wire_data ty d d
| wd_name ty c : In ty [5; 12; 2] -> name_ok c -> c <> [] -> (length (dotted c) <= 253)%nat -> wire_data ty (dotted c ++ [0]) (wire c)
| wd_mx pref c : 0 <= pref < 65536 -> name_ok c -> (length (dotted c) <= 253)%nat -> wire_data 15 (be16 pref ++ dotted c ++ [0]) (be16 pref ++ wire c).
(** The records stored have such data. *)
Definition op_wire_ok (o : op) : Prop := match o with OAdd _ r _ => exists w, wire_data (Cache_Model.r_type r) (Cache_Model.r_data r) w | OSweep _ => True end.

Section Answer.
Context (ignore : bool) (A : list entry) (now : Z).
(** The aliases from the name [n] on: the records to be sent for them, and the name that has no alias. *)
Inductive aliases : list (list Z) -> list rr -> list (list Z) -> Prop :=
| al_end n : alias ignore A (dotted n) now = None -> aliases n [] n
| al_step n e c rs n' : alias ignore A (dotted n) now = Some e -> wire_data 5 (e_data e) (wire c) -> name_ok c -> e_data e = dotted c ++ [0] ->
    aliases c rs n' -> aliases n (mk_rr (plain n) 5 1 (remaining ignore now e) (wire c) :: rs) n'.

(** The records of type [ty] of the name [n]. *)
Definition record_for (n : list (list Z)) (ty : Z) (v : list Z * Z) (r : rr) : Prop :=
  Parser_Spec.r_name r = plain n /\ Parser_Spec.r_type r = ty /\ Parser_Spec.r_class r = 1 /\ Parser_Spec.r_ttl r = snd v /\ wire_data ty (fst v) (Parser_Spec.r_data r).

(** [answers ql ty als rs]: what is to be sent for a question of the name [ql] and type [ty]: the aliases (unless these are what is asked for),
    then the records of the last name.  There is nothing to be sent if there are no such records. *)
Definition answers (ql : list (list Z)) (ty : Z) (als rs : list rr) : Prop :=
  exists n', (if ty =? 5 then als = [] /\ n' = ql else aliases ql als n') /\ Forall2 (record_for n' ty) (a_lookup ignore A (dotted n') ty 1 now) rs.
End Answer.

(** The header of a reply: identification, recursion desired, truncation and the bits Z, AD, CD as in the query; a response, opcode 0, not
    authoritative, recursion available, no error. *)
Definition reply_header (q a : list Z) : Prop :=
  exists i1 i2 f2 f3 f2' f3', q = [i1; i2; f2; f3] /\ a = [i1; i2; f2'; f3'] /\
    (forall i, Z.testbit f2' i = if i =? 7 then true else if (i =? 0) || (i =? 1) then Z.testbit f2 i else false) /\
    (forall i, Z.testbit f3' i = if i =? 7 then true else if (i =? 4) || (i =? 5) || (i =? 6) then Z.testbit f3 i else false).

Definition opt_record : rr := mk_rr (plain []) 41 1280 0 [].

(** [is_reply q edns rs g]: the message [g] is a well-formed reply to [q] with the answers [rs] (whose owner names may be compressed), and an OPT record
    if the query has one. *)
Definition is_reply (q : message) (edns : bool) (rs : list rr) (g : message) : Prop :=
  good_msg g /\ reply_header (m_idflags q) (m_idflags g) /\ m_qs g = m_qs q /\ m_ns g = [] /\ m_ar g = (if edns then [opt_record] else []) /\
  Forall2 same_but_name rs (m_an g) /\
  Forall2 (fun r v => exists w, denotes 63 (enc_msg g) (v_pos v) (en_labels (Parser_Spec.r_name r)) w) rs (view_rrs P_answer (12 + qs_len (m_qs g)) (m_an g)).
(** The reply without any compression. *)
Definition full_reply (q : message) (edns : bool) (rs : list rr) : message :=
  mk_msg (m_idflags q) (m_qs q) rs [] (if edns then [opt_record] else []).
