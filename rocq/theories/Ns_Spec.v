(** What is sent from the cache for a question for name servers (NS), for the name of an address (PTR) or for an alias (CNAME). *)
From Verif Require Import Base Hash_Model Cht_Model Cache_Model Cache_Spec Alias_Spec Name_Spec Parser_Model Parser_Spec Gen_Spec Compress_Spec Fetch_Spec.

(** A stored record (its data and its remaining lifetime) holds the host name and the lifetime [h]. *)
Definition stored_host (v : list Z * Z) (h : list (list Z) * Z) : Prop :=
  fst v = dotted (fst h) ++ [0] /\ snd v = snd h /\ name_ok (fst h) /\ fst h <> [] /\ (length (dotted (fst h)) <= 253)%nat.
(** [hosts_for ql ty als n hs]: from the name [ql] the aliases [als] lead to the name [n], for which the hosts [hs] are stored under the type [ty]. *)
Definition hosts_for (ignore : bool) (A : list entry) (now : Z) (ql : list (list Z)) (ty : Z) (als : list rr) (n : list (list Z)) (hs : list (list (list Z) * Z)) : Prop :=
  (if ty =? 5 then als = [] /\ n = ql else aliases ignore A now ql als n) /\ Forall2 stored_host (a_lookup ignore A (dotted n) ty 1 now) hs.

(** An alias (CNAME record) of [n]. *)
Definition alias_to (n : list (list Z)) (h : list (list Z) * Z) : rr := mk_rr (plain n) 5 1 (snd h) (wire (fst h)).
(** [n] is an alias of the first host, that of the second, and so on. *)
Fixpoint chained (n : list (list Z)) (hs : list (list (list Z) * Z)) : list rr :=
  match hs with [] => [] | h :: r => alias_to n h :: chained (fst h) r end.
