(** Address rules as written in the configuration and what they mean. *)
From Verif Require Import Base Ttl_Spec Addr_Spec Parser_Spec.

(** Addresses are their 4 or 16 bytes; their value as a number. *)
Definition value (a : list Z) : Z := fold_left (fun v x => 256 * v + x) a 0.
Definition width (a : list Z) : Z := 8 * Z.of_nat (length a).
Definition address (a : list Z) : Prop := (length a = 4%nat \/ length a = 16%nat) /\ Forall is_byte a.

(** A range: the addresses of the same kind whose first [r_len] bits are those of [r_base]. *)
Record range := mk_range { r_base : list Z; r_len : Z }.
Definition covers (r : range) (a : list Z) : Prop :=
  length a = length (r_base r) /\ value a / 2 ^ (width a - r_len r) = value (r_base r) / 2 ^ (width a - r_len r).

(** The text of a rule: "address", "address/length" (a length beyond that of an address means a single address), or
    an IPv6 address with a zone, which no address in a reply has ([None]). *)
Inductive ip_text : list Z -> list Z -> Prop :=
| it_v4 a t : dotted a t -> ip_text a t
| it_v6 gs t : v6_form gs t -> ip_text (group_bytes gs) t.
Inductive rule_ip : option range -> list Z -> Prop :=
| ri_single a t : ip_text a t -> rule_ip (Some (mk_range a (width a))) t
| ri_range a t n ds : ip_text a t -> decimal ds n -> n < 2147483648 -> rule_ip (Some (mk_range a (Z.min n (width a)))) (t ++ 47 :: ds)
| ri_zone gs t z : v6_form gs t -> (forall u, t <> u ++ [58]) -> ~ In 58 z -> ~ In 47 z -> rule_ip None (t ++ 37 :: z).

(** What is to be done with the addresses of a range. *)
Inductive action := Block | Replace (by_ : list Z).
(** The arguments of the "add a rule" calls: the address text and, for a substitution, the text of the substitute. *)
Definition action_text (act : action) (rg : option range) (o : option (list Z)) : Prop :=
  match act, o with
  | Block, None => True
  | Replace b, Some t => ip_text b t /\ match rg with Some r => length b = length (r_base r) | None => length b = 16%nat end
  | _, _ => False
  end.
Record rule := mk_rule { ru_range : option range; ru_act : action }.
Definition ip_rule_text (r : rule) (ip : list Z) (sub : option (list Z)) : Prop := rule_ip (ru_range r) ip /\ action_text (ru_act r) (ru_range r) sub.

Definition rule_covers (a : list Z) (r : rule) : Prop := match ru_range r with Some g => covers g a | None => False end.
Definition single (r : rule) : Prop := match ru_range r with Some g => r_len g = width (r_base g) | None => True end.
(** The first rule of a list for which [P] holds. *)
Inductive first (P : rule -> Prop) : list rule -> option rule -> Prop :=
| first_none : first P [] None
| first_here r rs : P r -> first P (r :: rs) (Some r)
| first_later r rs o : ~ P r -> first P rs o -> first P (r :: rs) o.

(** The ranges have an address in common; one is inside of the other. *)
Definition overlap (r1 r2 : rule) : Prop := exists a, address a /\ rule_covers a r1 /\ rule_covers a r2.
Definition within (r1 r2 : rule) : Prop := forall a, address a -> rule_covers a r1 -> rule_covers a r2.
(** No range is given after a narrower one inside of it. *)
Definition orderly (rs : list rule) : Prop :=
  forall r1 r2 r3 x y, rs = r1 ++ x :: r2 ++ y :: r3 -> ~ single x -> ~ single y -> overlap x y -> within y x.
(** What the rules [rs] say about addresses: only what a rule that covers the address says, and the first rule for this very
    address is the one that counts. *)
Record policy (rs : list rule) (look : list Z -> option action) : Prop := {
  po_sound : forall a act, address a -> look a = Some act -> exists r, In r rs /\ rule_covers a r /\ ru_act r = act;
  po_single : forall a r, address a -> first (fun r => single r /\ rule_covers a r) rs (Some r) -> look a = Some (ru_act r) }.

(** What becomes of the answers of a reply: the addresses with a substitution are replaced, up to the first blocked one. *)
Definition with_data (r : rr) (d : list Z) : rr := mk_rr (r_name r) (r_type r) (r_class r) (r_ttl r) d.
Definition has_address (r : rr) : Prop := r_class r = 1 /\ (r_type r = 1 \/ r_type r = 28).
(** An address record has the data of an address. *)
Definition address_ok (r : rr) : Prop := r_class r = 1 -> (r_type r = 1 -> length (r_data r) = 4%nat) /\ (r_type r = 28 -> length (r_data r) = 16%nat).
Inductive filtered (look : list Z -> option action) : list rr -> bool -> list rr -> Prop :=
| fi_end : filtered look [] false []
| fi_block r rs : has_address r -> look (r_data r) = Some Block -> filtered look (r :: rs) true (r :: rs)
| fi_replace r rs d b rs' : has_address r -> look (r_data r) = Some (Replace d) -> filtered look rs b rs' -> filtered look (r :: rs) b (with_data r d :: rs')
| fi_keep r rs b rs' : (has_address r -> look (r_data r) = None) -> filtered look rs b rs' -> filtered look (r :: rs) b (r :: rs').
