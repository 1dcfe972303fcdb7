(** Shared vocabulary: bytes, C memory areas, outcomes of C code.

    Bytes are integers 0..255 ([Z]); positions, lengths and loop counters are [nat].
    A C memory area is a [list Z]; accessing it outside of its length is undefined behaviour and
    is a separate outcome of the modelled functions. *)
From Coq Require Export List ZArith Lia Bool.
Export ListNotations.
Open Scope Z_scope.

(** Outcome of a piece of C code. *)
Inductive outcome (A : Type) : Type :=
| Ret (a : A)      (* returned normally *)
| UBR              (* read outside of the memory area *)
| UBW              (* write outside of the memory area *)
| Fuel.            (* the loop did not finish within the given number of iterations *)
Arguments Ret {A} a.
Arguments UBR {A}.
Arguments UBW {A}.
Arguments Fuel {A}.

Definition bind {A B} (o : outcome A) (f : A -> outcome B) : outcome B :=
  match o with Ret a => f a | UBR => UBR | UBW => UBW | Fuel => Fuel end.
Notation "'let!' x ':=' o 'in' e" := (bind o (fun x => e))
  (at level 200, x pattern, o at level 100, e at level 200).

Definition is_byte (b : Z) : Prop := 0 <= b < 256.

(** [len] bytes starting at [i]; [None] if they are not all inside the area. *)
Definition slice {A} (m : list A) (i len : nat) : option (list A) :=
  if Nat.leb (i + len) (length m) then Some (firstn len (skipn i m)) else None.

(** Overwrite the bytes at [i]; [None] if they are not all inside the area. *)
Definition write {A} (m : list A) (i : nat) (l : list A) : option (list A) :=
  if Nat.leb (i + length l) (length m)
  then Some (firstn i m ++ l ++ skipn (i + length l) m) else None.

(** Big-endian 16 and 32 bit fields: htons/htonl and ntohs/ntohl as used through
    SET_16_BIT_U_INT, SET_32_BIT_U_INT (dnsgenerator.h 10-11) and GET_16_BIT_U_INT,
    GET_32_BIT_U_INT (dnsparser.h 8-9).  The conversion to uint16_t/uint32_t is the wrap. *)
Definition be16 (v : Z) : list Z := [(v / 256) mod 256; v mod 256].
Definition be32 (v : Z) : list Z :=
  [(v / 16777216) mod 256; (v / 65536) mod 256; (v / 256) mod 256; v mod 256].
Definition from16 (l : list Z) : Z :=
  match l with [a; b] => a * 256 + b | _ => 0 end.
Definition from32 (l : list Z) : Z :=
  match l with [a; b; c; d] => ((a * 256 + b) * 256 + c) * 256 + d | _ => 0 end.
Definition get16 (m : list Z) (i : nat) : option Z := option_map from16 (slice m i 2).
Definition get32 (m : list Z) (i : nat) : option Z := option_map from32 (slice m i 4).
