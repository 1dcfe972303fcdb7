(** What a configuration of lists of good addresses means. *)
From Verif Require Import Base Ttl_Spec Addr_Spec Chunk_Spec Good_Model.

(** "GoodIPList name interval" and "GoodIPListAddIP name ip:port", without the names of the options. *)
Definition declares (l : list Z * Z) (text : list Z) : Prop :=
  exists g ds, word (fst l) /\ (length (fst l) <= 127)%nat /\ gap g /\ decimal ds (snd l) /\ 0 < snd l < 2147483648 /\ text = fst l ++ g ++ ds.
Definition adds_ip (x : list Z * (list Z * Z)) (text : list Z) : Prop :=
  exists g t p, word (fst x) /\ (length (fst x) <= 127)%nat /\ gap g /\ dotted (fst (snd x)) t /\ (length t <= 15)%nat /\
    decimal p (snd (snd x)) /\ snd (snd x) < 65536 /\ text = fst x ++ g ++ t ++ 58 :: p.
(** The addresses of a list. *)
Definition members (ips : list (list Z * (list Z * Z))) (n : list Z) : list (list Z * Z) :=
  map snd (filter (fun x => if list_eq_dec Z.eq_dec (fst x) n then true else false) ips).
(** Names without wildcards, each declared once. *)
Definition good_names (ls : list (list Z * Z)) : Prop := NoDup (map fst ls) /\ forall l, In l ls -> plain (fst l).
