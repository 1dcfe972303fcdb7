(** Model of the conversions between addresses and text (utils.c 443-631). *)
From Verif Require Import Base Hash_Model Ttl_Model.

(** The value of a digit in bases up to 16; 99 if it is none. *)
Definition digit (c : Z) : Z :=
  if (48 <=? c) && (c <=? 57) then c - 48
  else if (65 <=? c) && (c <=? 70) then c - 55
  else if (97 <=? c) && (c <=? 102) then c - 87 else 99.
(** The digits that sscanf takes for %u (base 10) or %x (base 16), utils.c 452-516 (calls of sscanf), and the rest of the text. *)
Fixpoint take_base (base : Z) (s : list Z) : list Z * list Z :=
  match s with [] => ([], []) | c :: r => if digit c <? base then let '(d, l) := take_base base r in (c :: d, l) else ([], s) end.
(** Their value, utils.c 452-531; the conversion of a value of 2^32 and more is left to the callers. *)
Definition base_value (base : Z) (ds : list Z) : Z := fold_left (fun v d => v * base + digit d) ds 0.
(** What strtol and strtoul read: blanks, a sign and digits; for base 16 also a prefix "0x" (if no digits follow it the
    model reads 0 and consumes the prefix).  [None]: no number. *)
Definition take_sign (s : list Z) : bool * list Z :=
  match s with 45 :: r => (true, r) | 43 :: r => (false, r) | _ => (false, s) end.
(** The optional 0x before hexadecimal digits that sscanf's %x accepts, utils.c 443-514. *)
Definition take_prefix (base : Z) (s : list Z) : list Z :=
  match s with 48 :: c :: r => if (base =? 16) && ((c =? 120) || (c =? 88)) then 48 :: r else s | _ => s end.
(** One conversion of sscanf (%u or %x) with leading blanks and sign, utils.c 443-531. *)
Definition scan_num (base : Z) (s : list Z) : option (Z * list Z) :=
  let '(neg, t) := take_sign (skip_space s) in
  match take_base base (take_prefix base t) with
  | ([], _) => None
  | (ds, l) => Some ((if neg : bool then - base_value base ds else base_value base ds), l)
  end.

(** "%d" and "%x" of sscanf on a platform with 64 bit long: strtol and strtoul saturate. *)
Definition scan_d (s : list Z) : option (Z * list Z) :=
  match scan_num 10 s with
  | None => None
  | Some (v, l) => Some (Z.max (-9223372036854775808) (Z.min 9223372036854775807 v), l)
  end.
(** %x of sscanf, utils.c 443-514. *)
Definition scan_x (s : list Z) : option (Z * list Z) :=
  match scan_num 16 s with
  | None => None
  | Some (v, l) => Some (if (18446744073709551615 <? v) || (v <? -18446744073709551615) then 18446744073709551615 else v, l)
  end.

(** sscanf with [n] conversions separated by the character [sep]: the values read. utils.c 452-531. *)
Fixpoint scan_list (one : list Z -> option (Z * list Z)) (sep : Z) (n : nat) (s : list Z) : list Z :=
  match n with
  | O => []
  | S n' => match one s with
            | None => []
            | Some (v, l) => v :: match n', l with
                                  | S _, c :: l' => if c =? sep then scan_list one sep n' l' else []
                                  | _, _ => []
                                  end
            end
  end.

(** Variables that sscanf leaves alone keep what was on the stack. utils.c 443-531. *)
Definition or_stale (stale : nat -> Z) (vs : list Z) (i : nat) : Z := nth i vs (stale i).

(** IPv4AddressToNum, 516-531: the result and the four bytes. *)
Definition v4_to_num (stale : nat -> Z) (s : list Z) : Z * list Z :=
  let vs := scan_list scan_d 46 4 s in
  (Z.of_nat (length vs), map (fun i => or_stale stale vs i mod 256) [0; 1; 2; 3]%nat).

(** sprintf "%u" and "%x". utils.c 550-631. *)
Definition print_digit (d : Z) : Z := if d <? 10 then 48 + d else 87 + d.
(** The digits of a number, most significant first, as printed by sprintf, utils.c 550-631. *)
Fixpoint print_loop (fuel : nat) (base v : Z) : list Z :=
  match fuel with
  | O => []
  | S fuel' => if v <? base then [print_digit v] else print_loop fuel' base (v / base) ++ [print_digit (v mod base)]
  end.
(** %u of sprintf, utils.c 620-631. *)
Definition print_u (v : Z) : list Z := print_loop 10 10 v.
(** %x of sprintf, utils.c 550-618. *)
Definition print_x (v : Z) : list Z := print_loop 8 16 v.

(** IPv4AddressToAsc, 620-631: the text without its terminator. *)
Definition v4_to_asc (a : list Z) : list Z :=
  print_u (nth 0 a 0) ++ 46 :: print_u (nth 1 a 0) ++ 46 :: print_u (nth 2 a 0) ++ 46 :: print_u (nth 3 a 0).

(** strstr(s, "::") and strchr(s, ':'), as what is left of the string from there. utils.c 443-514. *)
Fixpoint str_colons (s : list Z) : bool :=
  match s with c :: r => (c =? 58) && (match r with d :: _ => d =? 58 | [] => false end) || str_colons r | [] => false end.
(** strchr(3), as used in utils.c 443-514 and 533-548. *)
Fixpoint str_chr (c : Z) (s : list Z) : option (list Z) :=
  match s with [] => None | x :: r => if x =? c then Some s else str_chr c r end.

(** IPv6AddressToNum, 443-514.  The buffer is a list of eight 16 bit words. *)
Definition set_word (b : list Z) (i : Z) (v : Z) : outcome (list Z) :=
  if (0 <=? i) && (i <? Z.of_nat (length b)) then Ret (firstn (Z.to_nat i) b ++ (v mod 65536) :: skipn (S (Z.to_nat i)) b) else UBW.
(** 474-490, the groups before "::"; [i] is the position of buf_s, the second result is the "return 0" of line 481.
    Fewer rounds than the text has bytes. *)
Fixpoint v6_front (fuel : nat) (stale : nat -> Z) (b : list Z) (i : Z) (s : list Z) : outcome (list Z * bool) :=
  match fuel with
  | O => Fuel
  | S fuel' =>
    match str_chr 58 s with
    | None => Ret (b, true)
    | Some asc => if Nat.eqb (length asc) (length s) then Ret (b, false)
                  else let a := match scan_x s with Some (v, _) => v | None => stale (length s) end in
                       let! b' := set_word b i a in
                       v6_front fuel' stale b' (i + 1) (tl asc)
    end
  end.
(** 496: the last colon at or before position [stop] of the text. *)
Fixpoint last_colon (s : list Z) (stop : nat) : option nat :=
  if match nth_error s stop with Some c => c =? 58 | None => false end then Some stop
  else match stop with O => None | S k => last_colon s k end.
(** 491-510, the groups behind it, from the end of the text; [stop] is the position of asc. *)
Fixpoint v6_back (fuel : nat) (stale : nat -> Z) (b : list Z) (i : Z) (s : list Z) (stop : nat) : outcome (list Z) :=
  match fuel with
  | O => Fuel
  | S fuel' =>
    match last_colon s stop with
    | None => UBR
    | Some p =>
      match skipn (S p) s with
      | [] => Ret b
      | rest =>
        let a := match scan_x rest with Some (v, _) => v | None => stale p end in
        let! b' := set_word b i a in
        match p with
        | O => UBR
        | S q => if match nth_error s q with Some c => c =? 58 | None => false end then Ret b'
                 else v6_back fuel' stale b' (i - 1) s q
        end
      end
    end
  end.
(** 450-513: the result and the words. *)
Definition v6_words (stale : nat -> Z) (s0 : list Z) : outcome (Z * list Z) :=
  let zero := repeat 0 8 in
  let s := skip_space s0 in
  if negb (str_colons s) then
    let vs := scan_list scan_x 58 8 s in
    Ret (16, map (fun i => or_stale stale vs i mod 65536) (seq 0 8))
  else if match nth_error s 2 with None => true | Some c => is_space c end then Ret (0, zero)
  else let! r := v6_front (S (length s)) stale zero 0 s in
       if snd r then Ret (0, fst r)
       else let! b' := v6_back (S (length s)) stale (fst r) 7 s (length s) in Ret (16, b').
(** SET_16_BIT_U_INT stores big-endian. *)
Definition words_bytes (ws : list Z) : list Z := concat (map be16 ws).
(** IPv6AddressToNum as a whole, utils.c 443-514. *)
Definition v6_to_num (stale : nat -> Z) (s : list Z) : outcome (Z * list Z) :=
  let! r := v6_words stale s in Ret (fst r, words_bytes (snd r)).

(** IPv6AddressToAsc, 558-580: the longest run of zero words; the positions are byte positions, -1 if there is none. *)
Record run := mk_run { z_best : Z; n_best : Z; z_cur : Z; n_cur : Z }.
(** One turn of the loop that looks for the longest run of zero groups, in IPv6AddressToAsc, utils.c 550-618. *)
Definition run_step (x : list Z) (st : run) (i : nat) : run :=
  if (nth i x 0 =? 0) && (nth (i + 1) x 0 =? 0) then
    let z2 := if z_cur st =? -1 then Z.of_nat i else z_cur st in
    let n2 := (if z_cur st =? -1 then 0 else n_cur st) + 2 in
    if n_best st <? n2 then mk_run z2 n2 z2 n2 else mk_run (z_best st) (n_best st) z2 n2
  else mk_run (z_best st) (n_best st) (-1) (n_cur st).
(** The loop as a whole, utils.c 550-618. *)
Definition find_run (x : list Z) : run := fold_left (run_step x) [0; 2; 4; 6; 8; 10; 12; 14]%nat (mk_run (-1) 0 (-1) 0).
(** 582-613.  The number of digits printed is the number of hexadecimal digits, which is how far s is advanced.  Eight rounds. *)
Fixpoint asc_loop (fuel : nat) (x : list Z) (z n : Z) (i : Z) : list Z :=
  match fuel with
  | O => []
  | S fuel' =>
    if 16 <=? i then []
    else if (i =? z) && (2 <? n) then (if i =? 0 then [58] else []) ++ 58 :: asc_loop fuel' x z n (i + (n - 2) + 2)
    else let v := nth (Z.to_nat i) x 0 * 256 + nth (Z.to_nat i + 1) x 0 in
         print_x v ++ (if i <? 14 then [58] else []) ++ asc_loop fuel' x z n (i + 2)
  end.
(** IPv6AddressToAsc, utils.c 550-618. *)
Definition v6_to_asc (x : list Z) : list Z := let r := find_run x in asc_loop 9 x (z_best r) (n_best r) 0.
