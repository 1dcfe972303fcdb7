(** Specification of DNS messages: RFC 1035 layout of header, questions and resource records. *)
From Verif Require Import Base Name_Spec Parser_Model.

(** An encoded owner name: labels, then the root or a compression pointer. *)
Record ename := mk_ename { en_labels : list (list Z); en_tail : option (Z * Z) }.

Fixpoint enc_labels (ls : list (list Z)) : list Z :=
  match ls with [] => [] | l :: ls' => Z.of_nat (length l) :: l ++ enc_labels ls' end.
Definition enc_name (n : ename) : list Z :=
  enc_labels (en_labels n) ++ match en_tail n with None => [0] | Some (hi, lo) => [hi; lo] end.
Definition good_name (n : ename) : Prop :=
  Forall (fun l => (1 <= length l <= 63)%nat /\ Forall is_byte l) (en_labels n) /\
  match en_tail n with None => True | Some (hi, lo) => 192 <= hi < 256 /\ 0 <= lo < 256 end.

Record question := mk_q { q_name : ename; q_type : Z; q_class : Z }.
Record rr := mk_rr { r_name : ename; r_type : Z; r_class : Z; r_ttl : Z; r_data : list Z }.

Definition enc_q (q : question) : list Z := enc_name (q_name q) ++ be16 (q_type q) ++ be16 (q_class q).
Definition enc_rr (r : rr) : list Z :=
  enc_name (r_name r) ++ be16 (r_type r) ++ be16 (r_class r) ++ be32 (r_ttl r) ++
  be16 (Z.of_nat (length (r_data r))) ++ r_data r.

(** Types and classes are 16 bits, 0 is not a valid type or class; TTLs are 32 bits. *)
Definition good_q (q : question) : Prop :=
  good_name (q_name q) /\ 0 < q_type q < 65536 /\ 0 < q_class q < 65536.
Definition good_rr (r : rr) : Prop :=
  good_name (r_name r) /\ 0 < r_type r < 65536 /\ 0 < r_class r < 65536 /\
  0 <= r_ttl r < 4294967296 /\ Z.of_nat (length (r_data r)) < 65536 /\ Forall is_byte (r_data r).

Record message := mk_msg {
  m_idflags : list Z;                (* the first four bytes *)
  m_qs : list question; m_an : list rr; m_ns : list rr; m_ar : list rr }.

Definition enc_msg (g : message) : list Z :=
  m_idflags g ++ be16 (Z.of_nat (length (m_qs g))) ++ be16 (Z.of_nat (length (m_an g))) ++
  be16 (Z.of_nat (length (m_ns g))) ++ be16 (Z.of_nat (length (m_ar g))) ++
  concat (map enc_q (m_qs g)) ++ concat (map enc_rr (m_an g)) ++
  concat (map enc_rr (m_ns g)) ++ concat (map enc_rr (m_ar g)).

Definition good_msg (g : message) : Prop :=
  length (m_idflags g) = 4%nat /\ Forall is_byte (m_idflags g) /\
  Forall good_q (m_qs g) /\ Forall good_rr (m_an g) /\ Forall good_rr (m_ns g) /\ Forall good_rr (m_ar g) /\
  Z.of_nat (length (m_qs g)) < 65536 /\ Z.of_nat (length (m_an g)) < 65536 /\
  Z.of_nat (length (m_ns g)) < 65536 /\ Z.of_nat (length (m_ar g)) < 65536.

(** The records of a section, laid out one after the other from offset [o]. *)
Fixpoint view_qs (o : nat) (qs : list question) : list rec_view :=
  match qs with
  | [] => []
  | q :: qs' => mk_view o P_question (q_type q) (q_class q) None :: view_qs (o + length (enc_q q)) qs'
  end.
Fixpoint view_rrs (p : purpose) (o : nat) (rs : list rr) : list rec_view :=
  match rs with
  | [] => []
  | r :: rs' =>
    mk_view o p (r_type r) (r_class r)
      (Some (r_ttl r, Z.of_nat (length (r_data r)), (o + length (enc_rr r) - length (r_data r))%nat))
    :: view_rrs p (o + length (enc_rr r)) rs'
  end.
Definition qs_len (qs : list question) := length (concat (map enc_q qs)).
Definition rrs_len (rs : list rr) := length (concat (map enc_rr rs)).
Definition view_msg (g : message) : list rec_view :=
  let o1 := 12%nat in let o2 := (o1 + qs_len (m_qs g))%nat in
  let o3 := (o2 + rrs_len (m_an g))%nat in let o4 := (o3 + rrs_len (m_ns g))%nat in
  view_qs o1 (m_qs g) ++ view_rrs P_answer o2 (m_an g) ++
  view_rrs P_nameserver o3 (m_ns g) ++ view_rrs P_additional o4 (m_ar g).

(** The section of the i-th record (from 1) according to the header counts. *)
Definition section_of (qd an ns ar i : Z) : purpose :=
  if i <? 1 then P_unknown
  else if i <=? qd then P_question
  else if i <=? qd + an then P_answer
  else if i <=? qd + an + ns then P_nameserver
  else if i <=? qd + an + ns + ar then P_additional
  else P_unknown.
