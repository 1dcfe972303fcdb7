(** How a message is to be labelled, in terms of the message's own content. *)
From Verif Require Import Base Name_Spec Parser_Model Parser_Spec Mctx_Model Iheader_Model.

(** Capital letters become small ones. *)
Definition small (c : Z) : Z := if (65 <=? c) && (c <=? 90) then c + 32 else c.

(** The position of the last question: the questions before it follow the header of 12 bytes. *)
Definition last_question_at (g : message) : nat := (12 + length (concat (map enc_q (removelast (m_qs g)))))%nat.

(** A C string ends at its first NUL. *)
Definition before_nul (d t : list Z) : Prop := ~ In 0 t /\ (d = t \/ exists r, d = t ++ 0 :: r).

(** [asked g name type]: the name of the last question (compression followed) in small letters, and the type of the first. *)
Definition asked (g : message) (name : list Z) (type : Z) : Prop :=
  exists ls w t q qs, m_qs g = q :: qs /\ type = q_type q /\ denotes 63 (enc_msg g) (last_question_at g) ls w /\
    before_nul (dotted ls) t /\ name = map small t.

(** All questions are of class IN and all names can be read and have at most 255 characters. *)
Fixpoint readable (g : message) (o : nat) (qs : list question) : Prop :=
  match qs with
  | [] => True
  | q :: qs' => q_class q = 1 /\ (exists ls w, denotes 63 (enc_msg g) o ls w /\ (length (dotted ls) <= 255)%nat) /\ readable g (o + length (enc_q q)) qs'
  end.
Definition acceptable (g : message) : Prop := good_msg g /\ m_qs g <> [] /\ readable g 12 (m_qs g).

(** The message offers EDNS: an OPT record among the additional ones. *)
Definition offers_edns (g : message) : Prop := exists r, In r (m_ar g) /\ r_type r = 41.

(** The front end's buffer: an array Domain of 256 bytes, and room for [n] bytes of message. *)
Definition ubuf_ok (n : nat) (b : ubuf) : Prop := length (u_dom b) = 256%nat /\ length (u_mem b) = n /\ Forall is_byte (u_mem b).

(** [c] stands for the message [g] from the client at [addr], received at [sock]. *)
Definition handed_for (g : message) (addr : list Z) (sock : Z) (agent : list Z) (c : mctx) : Prop :=
  exists name, asked g name (h_type (c_h c)) /\ h_domain (c_h c) = name /\ h_back (c_h c) = Some addr /\ h_sock (c_h c) = sock /\
    h_agent (c_h c) = firstn 47 agent /\ h_len (c_h c) = Z.of_nat (length (enc_msg g)) /\ h_parent (c_h c) = None /\
    firstn (length (enc_msg g)) (c_entity c) = enc_msg g.
