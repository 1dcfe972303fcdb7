(** Model of the domain name codec: DNSGetHostName, DNSJumpOverName, DNSCopyLable
    (dnsparser.c 5-102, 162-190) and DNSLabelizedName (dnsgenerator.c 7-31). *)
From Verif Require Import Base.

(** GET_8_BIT_U_INT, dnsparser.h 10: one byte of the memory holding the packet. *)
Definition rd8 (m : list Z) (i : nat) : outcome Z :=
  match nth_error m i with Some b => Ret b | None => UBR end.

(** DNSIsLabelPointerStart, dnsparser.h 46.  For a byte, (n & 0xC0) == 0xC0 is n >= 192. *)
Definition is_ptr (b : Z) : bool := 192 <=? b.

(** DNSLabelGetPointer, dnsparser.h 48 (never called with NULL by the modelled code). *)
Definition label_ptr (m : list Z) (i : nat) : outcome nat :=
  let! hi := rd8 m i in
  let! lo := rd8 m (S i) in
  Ret (Z.to_nat (lo + (hi - 192) * 256)).

(** memcpy / single byte store into the caller's buffer. dnsparser.c 11-102, dnsgenerator.c 7-31. *)
Definition bwrite (b : list Z) (i : nat) (l : list Z) : outcome (list Z) :=
  match write b i l with Some b' => Ret b' | None => UBW end.

(** memcpy source inside the packet memory. dnsparser.c 11-102. *)
Definition rdn (m : list Z) (i n : nat) : outcome (list Z) :=
  match slice m i n with Some l => Ret l | None => UBR end.

(** Result of DNSGetHostName: [None] is -1, [Some n] the labels length; and the caller's buffer
    ([None] is a NULL buffer). *)
Definition name_result : Type := option nat * option (list Z).

(** dnsparser.c 80-99: what follows the loop. *)
Definition name_end (buf : option (list Z)) (bi ll : nat) (redir : bool) : outcome name_result :=
  let ret := Some (if redir then ll else S ll) in
  match buf with
  | None => Ret (ret, None)
  | Some b =>
    match bi with
    | O => match b with
           | [] => Ret (None, Some b)
           | _ => let! b' := bwrite b 0 [0] in Ret (ret, Some b')
           end
    | S k => let! b' := bwrite b k [0] in Ret (ret, Some b')
    end
  end.

(** dnsparser.c 48-62: a label of [cnt] bytes at [pos] goes to the buffer; [inl] is the early return -1. *)
Definition name_copy (m : list Z) (pos cnt : nat) (b : list Z) (bi : nat)
  : outcome (name_result + list Z) :=
  if Nat.leb (bi + cnt + 1) (length b)
  then let! l := rdn m (S pos) cnt in
       let! b1 := bwrite b bi l in
       let! b2 := bwrite b1 (bi + cnt) [46] in    (* 69-74 *)
       Ret (inr b2)
  else match bi with
       | O => match b with
              | [] => Ret (inl (None, Some b))
              | _ => let! b' := bwrite b 0 [0] in Ret (inl (None, Some b'))
              end
       | S k => let! b' := bwrite b k [0] in Ret (inl (None, Some b'))
       end.

(** dnsparser.c 11-102, DNSGetHostName.
    [m] is the memory starting at DNSBody (index 0) — it may be longer than DNSBodyLength [dlen];
    [hasbody = false] is DNSBody == NULL, then positions are relative to the start of the memory block the
    name lies in.  [buf] is the caller's buffer, its length is BufferLength.  [fuel] bounds the
    number of loop iterations.  Pointer arithmetic does not overflow. *)
Fixpoint name_loop (fuel : nat) (hasbody : bool) (dlen : nat) (m : list Z)
         (pos : nat) (buf : option (list Z)) (bi ll : nat) (redir : bool) {struct fuel}
  : outcome name_result :=
  match fuel with
  | O => Fuel
  | S fuel' =>
    let! c := rd8 m pos in                                         (* 17, 77 *)
    if c =? 0 then name_end buf bi ll redir
    else if is_ptr c then                                          (* 20-37 *)
      let ll' := if redir then ll else (ll + 2)%nat in
      match buf with
      | None => name_end buf bi ll' true                           (* break, 28-31 *)
      | Some _ =>
        let! p := label_ptr m pos in
        if Nat.ltb dlen p then Ret (None, buf)                     (* 33-36 *)
        else if hasbody then name_loop fuel' hasbody dlen m p buf bi ll' true
        else UBR                                                   (* NULL + offset *)
      end
    else
      let cnt := Z.to_nat c in
      if hasbody && Nat.ltb dlen (pos + cnt) then Ret (None, buf)  (* 39-44 *)
      else
        let ll' := if redir then ll else (ll + (cnt + 1))%nat in   (* 64-67 *)
        match buf with
        | None => name_loop fuel' hasbody dlen m (pos + (1 + cnt)) None bi ll' redir
        | Some b =>
          let! r := name_copy m pos cnt b bi in
          match r with
          | inl e => Ret e
          | inr b' => name_loop fuel' hasbody dlen m (pos + (1 + cnt)) (Some b') (bi + cnt + 1) ll' redir
          end
        end
  end.

(** DNSGetHostName as called with a packet (dnsparser.c 11). *)
Definition get_host_name (fuel dlen : nat) (m : list Z) (start : nat) (buf : list Z)
  : outcome name_result :=
  name_loop fuel true dlen m start (Some buf) 0 0 false.

(** dnsparser.c 5-8, DNSJumpOverName: the bytes occupied by the name at [start]; -1 never happens
    without a body and buffer, see [jump_over_name_ok]. *)
Definition jump_over_name (fuel : nat) (m : list Z) (start : nat) : outcome nat :=
  let! r := name_loop fuel false 0 m start None 0 0 false in
  match fst r with Some n => Ret (start + n)%nat | None => Ret (start - 1)%nat end.

(** dnsparser.c 162-190, DNSCopyLable: the bytes copied (the result length is their number).
    Every byte whose two top bits are set is taken for a pointer, also inside of a label. *)
Fixpoint copy_label (fuel : nat) (m : list Z) (src : nat) {struct fuel} : outcome (list Z) :=
  match fuel with
  | O => Fuel
  | S fuel' =>
    let! c := rd8 m src in
    if is_ptr c then
      let! p := label_ptr m src in copy_label fuel' m p
    else if c =? 0 then Ret [0]
    else let! r := copy_label fuel' m (S src) in Ret (c :: r)
  end.

(** The element at [i] replaced (no effect outside): the assignments through pointers into the buffer in DNSLabelizedName, dnsgenerator.c 7-31. *)
Fixpoint upd (m : list Z) (i : nat) (v : Z) : list Z :=
  match m, i with
  | [], _ => []
  | _ :: m', O => v :: m'
  | x :: m', S i' => x :: upd m' i' v
  end.

(** dnsgenerator.c 17-28: scan of the moved text [s]; [i] is Origin, [lab] is LabelLength
    (an unsigned char, so the increment wraps). *)
Fixpoint label_scan (s : list Z) (mem : list Z) (lab i : nat) : list Z :=
  match s with
  | [] => mem
  | c :: s' =>
    if c =? 46 then label_scan s' (upd mem i 0) i (S i)
    else label_scan s' (upd mem lab ((nth lab mem 0 + 1) mod 256)) lab (S i)
  end.

(** dnsgenerator.c 7-31, DNSLabelizedName on a NUL-terminated text [s] in a space of [space] bytes;
    [None] is the NULL result, [Some l] the bytes from Origin up to the returned end. *)
Definition labelize (s : list Z) (space : nat) : option (list Z) :=
  match s with
  | [] => Some [0]
  | _ => if Nat.ltb space (length s + 2) then None
         else Some (label_scan s (0 :: s ++ [0]) 0 1)
  end.
