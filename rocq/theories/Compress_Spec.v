(** Specification of name compression: which messages it is meant for. *)
From Verif Require Import Base Name_Spec Parser_Model Parser_Spec Gen_Spec.

(** The owners of the Internet class answers follow the chain of aliases: the first one is the name asked
    for, after a CNAME record the owner is its target.  Records of other classes may be anywhere. *)
Fixpoint answer_chain (cur : list (list Z)) (rs : list rr) : Prop :=
  match rs with
  | [] => True
  | r :: rs' =>
    if r_class r =? 1 then
      r_name r = plain cur /\ cur <> [] /\
      (if r_type r =? 5 then exists c, name_ok c /\ r_data r = wire c /\ answer_chain c rs'
       else answer_chain cur rs')
    else en_tail (r_name r) = None /\ answer_chain cur rs'
  end.

(** Equal in everything but the owner name's encoding. *)
Definition same_but_name (r r' : rr) : Prop :=
  r_type r' = r_type r /\ r_class r' = r_class r /\ r_ttl r' = r_ttl r /\ r_data r' = r_data r.

Definition with_answers (g : message) (an : list rr) : message :=
  mk_msg (m_idflags g) (m_qs g) an (m_ns g) (m_ar g).
