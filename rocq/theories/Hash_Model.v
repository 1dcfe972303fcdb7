(** Model of the string hash and of lower-casing (utils.c 87-95, 758-770). *)
From Verif Require Import Base.

(** tolower in the C locale on one byte; StrToLower, utils.c 87-95. *)
Definition to_lower (c : Z) : Z := if (65 <=? c) && (c <=? 90) then c + 32 else c.
(** StrToLower, utils.c 87-95. *)
Definition str_to_lower (s : list Z) : list Z := map to_lower s.

(** A byte as (signed) char. utils.c 758-770. *)
Definition schar (c : Z) : Z := if c <? 128 then c else c - 256.

(** Conversion to uint32_t and from there to int. *)
Definition u32 (x : Z) : Z := x mod 4294967296.
(** A 32 bit unsigned value taken as int, as returned by BKDRHash, utils.c 758-770, and compared in mcontext.c 117-130. *)
Definition to_int32 (x : Z) : Z := let y := u32 x in if y <? 2147483648 then y else y - 4294967296.

(** BKDRHash, utils.c 758-770, on a string without its terminator. *)
Definition bkdr (s : list Z) : Z := fold_left (fun h c => u32 (h * 131 + schar c)) s 0.
