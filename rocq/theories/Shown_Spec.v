(** What the log shows of a response. *)
From Coq Require Import String Ascii.
From Verif Require Import Base Name_Spec Parser_Spec Addr_Spec Iheader_Spec Rdata_Spec.

(** The codes of a text. *)
Definition str (s : string) : list Z := map (fun c => Z.of_nat (nat_of_ascii c)) (list_ascii_of_string s).
(** [num v t]: [t] is the number [v] in decimal, without leading zeros. *)
Definition num (v : Z) (t : list Z) : Prop := (v = 0 /\ t = [48]) \/ digits v t.

(** What a record is called. *)
Definition labels : list (Z * string) :=
  [(1, "IPv4 Address"); (2, "Name Server"); (5, "Canonical Name"); (6, "Start of Authority"); (12, "Domain Pointer"); (13, "Host Information"); (15, "MX"); (16, "TXT");
   (17, "RP"); (18, "AFSDB"); (24, "SIG"); (25, "KEY"); (28, "IPv6 Address"); (29, "LOC"); (33, "SRV"); (35, "NAPTR"); (36, "KX"); (37, "CERT"); (39, "DNAME"); (41, "OPT");
   (42, "APL"); (43, "DS"); (44, "SSHFP"); (45, "IPSECKEY"); (46, "RRSIG"); (47, "NSEC"); (48, "DNSKEY"); (49, "DHCID"); (50, "NSEC3"); (51, "NSEC3PARAM"); (55, "HIP");
   (64, "SVCB"); (65, "HTTPS"); (99, "SPF"); (249, "TKEY"); (250, "TSIG"); (251, "IXFR"); (252, "AXFR"); (255, "*"); (32768, "TA"); (32769, "DLV")]%string.
Inductive label (ty : Z) : list Z -> Prop :=
| lb_known s : In (ty, s) labels -> label ty (str s)
| lb_unknown t : (forall s, ~ In (ty, s) labels) -> num ty t -> label ty (str "UNKNOWN (" ++ t ++ str ")").

(** Addresses as text. *)
Definition quad (a t : list Z) : Prop :=
  exists a1 a2 a3 a4 t1 t2 t3 t4, a = [a1; a2; a3; a4] /\ num a1 t1 /\ num a2 t2 /\ num a3 t3 /\ num a4 t4 /\ t = t1 ++ 46 :: t2 ++ 46 :: t3 ++ 46 :: t4.
Definition groups (a t : list Z) : Prop :=
  exists gs, a = group_bytes gs /\ length gs = 8%nat /\ Forall (fun x => 0 <= x < 65536) gs /\ (length t <= 39)%nat /\ (v6_form gs t \/ gs = repeat 0 8 /\ t = [58; 58]).
(** [name_wide g o w t]: the name at [o], which takes [w] bytes there, is [t] as text (up to a NUL, if a label has one). *)
Definition name_wide (g : message) (o w : nat) (t : list Z) : Prop :=
  exists ls, denotes 63 (enc_msg g) o ls w /\ (length (Name_Spec.dotted ls) <= 253)%nat /\ before_nul (Name_Spec.dotted ls) t.
(** The number of four bytes. *)
Definition be4 (l : list Z) : Z := fold_left (fun v c => 256 * v + c) l 0.

(** [shown g o r vs]: of the record [r] at [o] these values are shown, each with what it is. *)
Inductive shown (g : message) (o : nat) (r : rr) : list (list Z * list Z) -> Prop :=
| sh_a t : r_type r = 1 -> quad (r_data r) t -> shown g o r [(str "IPv4 Address", t)]
| sh_aaaa t : r_type r = 28 -> groups (r_data r) t -> shown g o r [(str "IPv6 Address", t)]
| sh_name w l t : In (r_type r) [5; 12; 2] -> label (r_type r) l -> name_wide g (data_at o r) w t -> shown g o r [(l, t)]
| sh_txt ss t : r_type r = 16 -> Forall (fun s => (length s < 256)%nat) ss -> r_data r = flat_map (fun s => Z.of_nat (length s) :: s) ss -> before_nul (concat ss) t ->
    shown g o r [(str "TXT", t)]
| sh_mx a b d n w t : r_type r = 15 -> r_data r = a :: b :: d -> d <> [] -> num (256 * a + b) n -> name_wide g (data_at o r + 2) w t ->
    shown g o r [(str "preference", n); (str "mail exchanger", t)]
| sh_soa w1 t1 w2 t2 d n1 n2 n3 n4 n5 : r_type r = 6 -> name_wide g (data_at o r) w1 t1 -> name_wide g (data_at o r + w1) w2 t2 ->
    length d = 20%nat -> (exists nn, r_data r = nn ++ d /\ length nn = (w1 + w2)%nat) ->
    num (be4 (firstn 4 d)) n1 -> num (be4 (firstn 4 (skipn 4 d))) n2 -> num (be4 (firstn 4 (skipn 8 d))) n3 -> num (be4 (firstn 4 (skipn 12 d))) n4 -> num (be4 (skipn 16 d)) n5 ->
    shown g o r [(str "(SOA)primary name server", t1); (str "(SOA)responsible mail addr", t2); (str "(SOA)serial", n1); (str "(SOA)refresh", n2); (str "(SOA)retry", n3);
                 (str "(SOA)expire", n4); (str "(SOA)default TTL", n5)]
| sh_opt l : r_type r = 41 -> label 41 l -> shown g o r [(l, str "Pseudo-RR")]
| sh_other l n : ~ In (r_type r) [1; 28; 5; 12; 2; 16; 15; 6; 41] -> label (r_type r) l -> num (Z.of_nat (length (r_data r))) n -> shown g o r [(l, n ++ str " bytes")].
(** Records of the class IN are shown, and OPT. *)
Definition listed (r : rr) : Prop := r_type r = 41 \/ r_class r = 1.
(** The text of the values of some records, a line for each. *)
Definition lines_text (vss : list (list (list Z * list Z))) : list Z := concat (map (fun p => log_line (fst p) (snd p)) (concat vss)).
