(** Texts that sscanf and inet functions read as numbers although they are no components of an address. *)
From Verif Require Import Base Ttl_Spec Addr_Spec.

(** Blanks, a sign and decimal digits, all but the digits optional; [v] is the number written. *)
Inductive loose : list Z -> Z -> Prop :=
| loose_plain b ds n : spaces b -> decimal ds n -> loose (b ++ ds) n
| loose_plus b ds n : spaces b -> decimal ds n -> loose (b ++ 43 :: ds) n
| loose_minus b ds n : spaces b -> decimal ds n -> loose (b ++ 45 :: ds) (- n).
(** The number as a long: beyond its range the nearest bound. *)
Definition as_long (v : Z) : Z := if v <? - 2 ^ 63 then - 2 ^ 63 else if 2 ^ 63 - 1 <? v then 2 ^ 63 - 1 else v.
(** Texts that do not go on with a digit. *)
Definition no_digit (r : list Z) : Prop := forall c r', r = c :: r' -> ~ 48 <= c <= 57.
(** Four such numbers with dots between them and any text behind them; the address has their lowest eight bits. *)
Definition loose_dotted (a : list Z) (t : list Z) : Prop :=
  exists ts vs r, length ts = 4%nat /\ Forall2 loose ts vs /\ no_digit r /\ t = join 46 ts ++ r /\ a = map (fun v => as_long v mod 256) vs.

(** Blanks, a sign, "0x" and hexadecimal digits, all but the digits optional. *)
Inductive loose_hex : list Z -> Z -> Prop :=
| loose_hex_plain b sg p ds n : spaces b -> In sg [[]; [43]] -> In p [[]; [48; 120]; [48; 88]] -> hexadecimal ds n -> loose_hex (b ++ sg ++ p ++ ds) n
| loose_hex_minus b p ds n : spaces b -> In p [[]; [48; 120]; [48; 88]] -> hexadecimal ds n -> loose_hex (b ++ [45] ++ p ++ ds) (- n).
(** The number as an unsigned long: negative ones count from 2^64 downwards; out of range the greatest. *)
Definition as_ulong (v : Z) : Z := if (2 ^ 64 <=? v) || (v <=? - 2 ^ 64) then 2 ^ 64 - 1 else v mod 2 ^ 64.
(** Texts that do not go on with a hexadecimal digit or the x of "0x". *)
Definition no_hexit (r : list Z) : Prop := forall c r', r = c :: r' -> (forall d, ~ hexit c d) /\ c <> 120 /\ c <> 88.
