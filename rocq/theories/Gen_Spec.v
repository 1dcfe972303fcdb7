(** Specification of message building: calls with their arguments in terms of labels, and the message
    they are meant to build. *)
From Verif Require Import Base Name_Spec Parser_Model Parser_Spec Gen_Model.

(** A building call at the level of labels. *)
Inductive sop :=
| SQuestion (n : list (list Z)) (ty kl : Z)
| SCName (n c : list (list Z)) (ttl : Z)
| SMX (n : list (list Z)) (pref : Z) (s : list (list Z)) (ttl : Z)
| SA (n : list (list Z)) (ip : list Z) (ttl : Z)
| SAAAA (n : list (list Z)) (ip : list Z) (ttl : Z)
| SEDns (size : Z)
| SRaw (n : list (list Z)) (ty kl : Z) (data : list Z) (ttl : Z)
| SNext.

(** The same call on the API: names in dotted text form. *)
Definition call_of (s : sop) : gop :=
  match s with
  | SQuestion n ty kl => OQuestion (dotted n) ty kl
  | SCName n c ttl => OCName (dotted n) (dotted c) ttl
  | SMX n pref s ttl => OMX (dotted n) pref (dotted s) ttl
  | SA n ip ttl => OA (dotted n) ip ttl
  | SAAAA n ip ttl => OAAAA (dotted n) ip ttl
  | SEDns size => OEDns size
  | SRaw n ty kl data ttl => ORaw (dotted n) ty kl data ttl
  | SNext => ONext
  end.

Definition plain (n : list (list Z)) : ename := mk_ename n None.
Definition name_ok (n : list (list Z)) : Prop := Forall (good_label 63) n.
Definition ttl_ok (t : Z) : Prop := 0 <= t < 4294967296.
Definition sop_ok (s : sop) : Prop :=
  match s with
  | SQuestion n ty kl => name_ok n /\ 0 < ty < 65536 /\ 0 < kl < 65536
  | SCName n c ttl => name_ok n /\ name_ok c /\ ttl_ok ttl /\ Z.of_nat (length (wire c)) < 65536
  | SMX n pref s ttl => name_ok n /\ name_ok s /\ ttl_ok ttl /\ 0 <= pref < 65536 /\ Z.of_nat (length (wire s)) + 2 < 65536
  | SA n ip ttl => name_ok n /\ length ip = 4%nat /\ Forall is_byte ip /\ ttl_ok ttl
  | SAAAA n ip ttl => name_ok n /\ length ip = 16%nat /\ Forall is_byte ip /\ ttl_ok ttl
  | SEDns size => 0 < size < 65536
  | SRaw n ty kl data ttl => name_ok n /\ 0 < ty < 65536 /\ 0 < kl < 65536 /\ ttl_ok ttl /\
                             Z.of_nat (length data) < 65536 /\ Forall is_byte data
  | SNext => True
  end.

(** The resource record a call stands for. *)
Definition sop_rr (s : sop) : option rr :=
  match s with
  | SCName n c ttl => Some (mk_rr (plain n) 5 1 ttl (wire c))
  | SMX n pref s ttl => Some (mk_rr (plain n) 15 1 ttl (be16 pref ++ wire s))
  | SA n ip ttl => Some (mk_rr (plain n) 1 1 ttl ip)
  | SAAAA n ip ttl => Some (mk_rr (plain n) 28 1 ttl ip)
  | SEDns size => Some (mk_rr (plain []) 41 size 0 [])
  | SRaw n ty kl data ttl => Some (mk_rr (plain n) ty kl ttl data)
  | _ => None
  end.

(** The message being built and the current section. *)
Definition spec_next (p : purpose) : purpose :=
  match p with P_question => P_answer | P_answer => P_nameserver | P_nameserver => P_additional | _ => P_unknown end.
Definition add_rr (p : purpose) (r : rr) (g : message) : message :=
  match p with
  | P_answer => mk_msg (m_idflags g) (m_qs g) (m_an g ++ [r]) (m_ns g) (m_ar g)
  | P_nameserver => mk_msg (m_idflags g) (m_qs g) (m_an g) (m_ns g ++ [r]) (m_ar g)
  | P_additional => mk_msg (m_idflags g) (m_qs g) (m_an g) (m_ns g) (m_ar g ++ [r])
  | _ => g
  end.
(** Effect of a call that returned [code]: only 0 has one. *)
Definition spec_step (s : sop) (code : Z) (st : message * purpose) : message * purpose :=
  let (g, p) := st in
  if code =? 0 then
    match s with
    | SNext => (g, spec_next p)
    | SQuestion n ty kl => (mk_msg (m_idflags g) (m_qs g ++ [mk_q (plain n) ty kl]) (m_an g) (m_ns g) (m_ar g), p)
    | _ => match sop_rr s with Some r => (add_rr p r g, p) | None => (g, p) end
    end
  else st.
Fixpoint spec_run (ss : list sop) (codes : list Z) (st : message * purpose) : message * purpose :=
  match ss, codes with
  | s :: ss', c :: codes' => spec_run ss' codes' (spec_step s c st)
  | _, _ => st
  end.
Definition spec_init (idflags : list Z) : message * purpose := (mk_msg idflags [] [] [] [], P_question).
