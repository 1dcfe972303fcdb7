(** How addresses are written. *)
From Verif Require Import Base Ttl_Spec.

(** Hexadecimal digits, either case, writing the number [v]. *)
Inductive hexit : Z -> Z -> Prop :=
| hx_num d : 0 <= d <= 9 -> hexit (48 + d) d
| hx_upper d : 10 <= d <= 15 -> hexit (55 + d) d
| hx_lower d : 10 <= d <= 15 -> hexit (87 + d) d.
Inductive hexadecimal : list Z -> Z -> Prop :=
| hex_one c d : hexit c d -> hexadecimal [c] d
| hex_more ds v c d : hexadecimal ds v -> hexit c d -> hexadecimal (ds ++ [c]) (16 * v + d).

(** Items with a separator between them. *)
Fixpoint join (sep : Z) (ts : list (list Z)) : list Z :=
  match ts with [] => [] | [t] => t | t :: ts' => t ++ sep :: join sep ts' end.

(** "a.b.c.d" *)
Definition dotted (a : list Z) (t : list Z) : Prop :=
  exists ts, length a = 4%nat /\ Forall is_byte a /\ Forall2 decimal ts a /\ t = join 46 ts.

(** The groups of an IPv6 address. *)
Definition group (t : list Z) (g : Z) : Prop := hexadecimal t g /\ g < 65536.
(** Eight groups, or fewer and "::" in the place of the missing ones, which are 0 - but not "::" alone. *)
Inductive v6_form (gs : list Z) : list Z -> Prop :=
| v6_full ts : length gs = 8%nat -> Forall2 group ts gs -> v6_form gs (join 58 ts)
| v6_short pre tp post tq : Forall2 group tp pre -> Forall2 group tq post -> (1 <= length pre + length post <= 7)%nat ->
    gs = pre ++ repeat 0 (8 - length pre - length post) ++ post -> v6_form gs (join 58 tp ++ 58 :: 58 :: join 58 tq).
(** The 16 bytes of eight groups. *)
Definition group_bytes (gs : list Z) : list Z := flat_map (fun g => [g / 256; g mod 256]) gs.
