(** What a text that names a server or an interface means. *)
From Verif Require Import Base Ttl_Spec Addr_Spec Alist_Model.

(** A decimal number without superfluous zeros. *)
Definition plain (t : list Z) (v : Z) : Prop := decimal t v /\ forall t', t = 48 :: t' -> t' = [].
Definition dotted_plain (a : list Z) (t : list Z) : Prop :=
  exists ts, length a = 4%nat /\ Forall is_byte a /\ Forall2 plain ts a /\ t = join 46 ts.
(** An IPv6 address of at most 45 characters, also "::". *)
Definition v6_text (gs t : list Z) : Prop := (v6_form gs t \/ t = [58; 58] /\ gs = repeat 0 8) /\ (length t <= 45)%nat.
(** "a.b.c.d", "a.b.c.d:port", "[v6]" and "[v6]:port". *)
Inductive denotes (dport : Z) : list Z -> saddr -> Prop :=
| dn_v4 a t : dotted_plain a t -> denotes dport t (mk_sa false a dport)
| dn_v4_port a t p v : dotted_plain a t -> decimal p v -> v < 65536 -> denotes dport (t ++ 58 :: p) (mk_sa false a v)
| dn_v6 gs t : v6_text gs t -> denotes dport (91 :: t ++ [93]) (mk_sa true (group_bytes gs) dport)
| dn_v6_port gs t p v : v6_text gs t -> decimal p v -> v < 65536 -> denotes dport (91 :: t ++ 93 :: 58 :: p) (mk_sa true (group_bytes gs) v).

(** Texts that name no address: without brackets, and fewer than three dots or no digit or sign at the start; or a '[' without ']'. *)
Definition not_address (s : list Z) : Prop :=
  ~ In 91 s /\ ((count_occ Z.eq_dec s (46)%Z < 3)%nat \/ exists b c r, s = b ++ c :: r /\ spaces b /\ ~ 48 <= c <= 57 /\ c <> 43 /\ c <> 45 /\ c <> 32 /\ ~ 9 <= c <= 13) \/
  In 91 s /\ ~ In 93 s.

(** The addresses among some texts, in order; the other texts name none. *)
Inductive addresses (dport : Z) : list (list Z) -> list saddr -> Prop :=
| ad_none : addresses dport [] []
| ad_one x xs a l : denotes dport x a -> addresses dport xs l -> addresses dport (x :: xs) (a :: l)
| ad_skip x xs l : not_address x -> addresses dport xs l -> addresses dport (x :: xs) l.

(** What is opened of a list of interfaces (position, address): the sockets the system gave for them, in order. *)
Inductive opens (os : nat -> saddr -> sockres) : nat -> list (list Z) -> list (Z * saddr) -> Prop :=
| os_none i : opens os i [] []
| os_open i x xs a fd l : denotes 53 x a -> os i a = Opened fd -> opens os (S i) xs l -> opens os i (x :: xs) ((fd, a) :: l)
| os_fail i x xs a l : denotes 53 x a -> (os i a = NoSocket \/ exists fd, os i a = NoBind fd) -> opens os (S i) xs l -> opens os i (x :: xs) l
| os_skip i x xs l : not_address x -> opens os (S i) xs l -> opens os i (x :: xs) l.
