(** Model of stringlist.c on top of the append-only buffer (Arr_Model, stablebuffer.c), and of ReplaceStr of utils.c. *)
From Verif Require Import Base Hash_Model Arr_Model.

(** A character is one of a set, as strpbrk(3) and strchr(3) test it in stringlist.c 5-27 and utils.c 828-872. *)
Definition memz (c : Z) (l : list Z) : bool := existsb (Z.eqb c) l.
(** strlen of the string at [i] of a block; UBR if there is no terminator in the memory. stringlist.c 5-398. *)
Fixpoint zlen (m : list Z) : option nat := match m with [] => None | c :: m' => if c =? 0 then Some 0%nat else option_map S (zlen m') end.
(** strlen(3) of a string in a block, stringlist.c 5-398. *)
Definition strlen_at (s : sbuf) (b o : nat) : outcome nat :=
  match nth_error s b with None => UBR | Some k => match zlen (skipn o (bk_mem k)) with None => UBR | Some n => Ret n end end.
(** Writing to a block, stringlist.c 5-259. *)
Definition set_block (s : sbuf) (b : nat) (k : block) : sbuf := firstn b s ++ k :: skipn (S b) s.

(** Divide, 5-27: every delimiter up to the terminator becomes a terminator; the calls of strpbrk are one pass.  No delimiters
    are given as [None].  Returns the number of pieces. *)
Fixpoint divide_loop (delims : list Z) (l : list Z) : outcome (list Z * nat) :=
  match l with
  | [] => UBR
  | c :: l' => if c =? 0 then Ret (l, 0%nat)
               else let! r := divide_loop delims l' in
                    if memz c delims then Ret (0 :: fst r, S (snd r)) else Ret (c :: fst r, snd r)
  end.
(** Divide, stringlist.c 5-27. *)
Definition divide (s : sbuf) (b o : nat) (delims : option (list Z)) : outcome (sbuf * nat) :=
  match delims with
  | None => Ret (s, 1%nat)
  | Some ds => match nth_error s b with
               | None => UBR
               | Some k => let! r := divide_loop ds (skipn o (bk_mem k)) in
                           Ret (set_block s b (mk_block (firstn o (bk_mem k) ++ fst r) (bk_used k)), S (snd r))
               end
  end.
(** StringList_Add, 51-69 (and the part of StringList_Init 284-294 for an initial string). *)
Definition sl_add (ok : bool) (junk : nat -> Z) (s : sbuf) (str : list Z) (delims : option (list Z)) : outcome (bool * sbuf) :=
  let! r := sbuf_add ok junk s (Some (str ++ [0])) (length str + 1) false in
  match fst r with
  | None => Ret (false, snd r)
  | Some (b, o) => let! q := divide (snd r) b o delims in Ret (true, fst q)
  end.

(** The position of an iterator: block and offset; [None] is NULL.  The loops at 327-342 and 358-371: go on to the first block that
    has something at the position. *)
Fixpoint settle (fuel : nat) (s : sbuf) (b o : nat) : outcome (option (nat * nat)) :=
  match fuel with
  | O => Fuel
  | S fuel => match nth_error s b with
              | None => Ret None
              | Some k => if Nat.ltb o (bk_used k) then Ret (Some (b, o)) else settle fuel s (S b) 0
              end
  end.
(** StringListIterator_Next, 318-343, with StableBufferIterator_NextBlock 137-157 and IsInCurrentBlock 182-202. *)
Definition sl_next (s : sbuf) (it : option (nat * nat)) : outcome (option (nat * nat)) :=
  match it with
  | None => settle (length s + 1) s 0 0
  | Some (b, o) => let! n := strlen_at s b o in settle (length s + 1) s b (o + n + 1)
  end.
(** The string at a position. stringlist.c 197-398. *)
Definition str_at (s : sbuf) (b o : nat) : outcome (list Z) :=
  let! n := strlen_at s b o in match nth_error s b with None => UBR | Some k => Ret (firstn n (skipn o (bk_mem k))) end.
(** Walking the list: the loops of StringList_Count 29-49 and ToCharPtrArray 147-185. *)
Fixpoint sl_walk (fuel : nat) (s : sbuf) (it : option (nat * nat)) : outcome (list (list Z)) :=
  match fuel with
  | O => Fuel
  | S fuel => let! n := sl_next s it in
              match n with
              | None => Ret []
              | Some (b, o) => let! x := str_at s b o in let! r := sl_walk fuel s n in Ret (x :: r)
              end
  end.
(** RemoveNBytesOfCurrentBlock, stablebuffer.c 232-254. *)
Definition remove_n (s : sbuf) (b o n : nat) : sbuf :=
  match nth_error s b with
  | None => s
  | Some k => if Nat.ltb o (bk_used k) && Nat.leb (o + n) (bk_used k)
              then set_block s b (mk_block (firstn o (bk_mem k) ++ firstn (bk_used k - o - n) (skipn (o + n) (bk_mem k)) ++ skipn (bk_used k - n) (bk_mem k)) (bk_used k - n))
              else s
  end.
(** StringListIterator_Remove, 345-372. *)
Definition sl_remove (s : sbuf) (b o : nat) : outcome (option (nat * nat) * sbuf) :=
  let! n := strlen_at s b o in
  let s1 := remove_n s b o (n + 1) in
  let! p := settle (length s + 1) s1 b o in Ret (p, s1).
(** StrNpbrk, utils.c 828-847: how many characters at the start are garbage; [None] is NULL. *)
Fixpoint npbrk (g : list Z) (x : list Z) : option nat :=
  match x with [] => None | c :: x' => if memz c g then option_map S (npbrk g x') else Some 0%nat end.
(** StrRNpbrk, utils.c 849-872: the position of the last character that is not garbage.  strchr finds the terminator of the
    garbage string also, but there is none in the text. *)
Fixpoint rnpbrk (g : list Z) (x : list Z) : option nat :=
  match x with [] => None | c :: x' => match rnpbrk g x' with Some i => Some (S i) | None => if memz c g then None else Some 0%nat end end.
(** StringList_TrimAll, 197-243; the default garbage is tab, space, CR, LF. *)
Definition default_garbage : list Z := [9; 32; 13; 10].
(** The loop of StringList_TrimAll, stringlist.c 197-243. *)
Fixpoint trim_loop (fuel : nat) (g : list Z) (s : sbuf) (it : option (nat * nat)) : outcome sbuf :=
  match fuel with
  | O => Fuel
  | S fuel =>
    match it with
    | None => Ret s
    | Some (b, o) =>
      let! x := str_at s b o in
      match npbrk g x with
      | None => let! r := sl_remove s b o in trim_loop fuel g (snd r) (fst r)
      | Some h =>
        let s1 := remove_n s b o h in
        let! x1 := str_at s1 b o in
        let s2 := match rnpbrk g x1 with None => s1 | Some t => remove_n s1 b (o + S t) (length x1 - S t) end in
        let! n := sl_next s2 it in trim_loop fuel g s2 n
      end
    end
  end.
(** StringList_TrimAll, stringlist.c 197-243. *)
Definition trim_all (fuel : nat) (g : option (list Z)) (s : sbuf) : outcome sbuf :=
  let! n := sl_next s None in trim_loop fuel (match g with None => default_garbage | Some g => g end) s n.
(** StringList_LowercaseAll, 245-259; StrToLower is one pass over the string. *)
Fixpoint lower_loop (fuel : nat) (s : sbuf) (it : option (nat * nat)) : outcome sbuf :=
  match fuel with
  | O => Fuel
  | S fuel =>
    let! n := sl_next s it in
    match n with
    | None => Ret s
    | Some (b, o) =>
      let! x := str_at s b o in
      match nth_error s b with
      | None => UBR
      | Some k => match write (bk_mem k) o (str_to_lower x) with
                  | None => UBW
                  | Some m => lower_loop fuel (set_block s b (mk_block m (bk_used k))) n
                  end
      end
    end
  end.
(** The backward loop 108-115: from offset [l] down to, but not at, 0; where the last string begins. *)
Fixpoint last_start (m : list Z) (l : nat) : outcome nat :=
  match l with
  | O => Ret 0%nat
  | S l' => match nth_error m l with None => UBR | Some c => if c =? 0 then Ret (S l) else last_start m l' end
  end.
(** StringList_AppendLast, 72-145.  [junk2] is the contents of the new string's memory. *)
Definition sl_append_last (ok : bool) (junk junk2 : nat -> Z) (s : sbuf) (str : list Z) (delims : option (list Z)) : outcome (Z * sbuf) :=
  match nth_error s (length s - 1) with
  | None => Ret (-3, s)
  | Some k =>
    let! l := last_start (bk_mem k) (bk_used k - 2) in
    let! n := strlen_at s (length s - 1) l in
    let half := (bk_used k - l)%nat in
    let size := (length str + 1 + half - 1)%nat in
    match write (map junk2 (seq 0 size)) 0 (firstn n (skipn l (bk_mem k)) ++ str ++ [0]) with
    | None => UBW
    | Some news =>
      let s1 := set_block s (length s - 1) (mk_block (bk_mem k) (if Nat.ltb (bk_used k) half then 0 else bk_used k - half)) in
      let! r := sbuf_add ok junk s1 (Some news) size false in
      match fst r with
      | None => Ret (-5, snd r)
      | Some (b, o) => let! q := divide (snd r) b o delims in Ret (Z.of_nat (snd q), fst q)
      end
    end
  end.

(** * ReplaceStr *)
(** strstr: the position of the first occurrence. utils.c 1080-1135. *)
Fixpoint prefixb (p x : list Z) : bool := match p, x with [], _ => true | a :: p', b :: x' => (a =? b) && prefixb p' x' | _ :: _, [] => false end.
(** strstr(3), as used in utils.c 1080-1135. *)
Fixpoint find_str (p x : list Z) : option nat :=
  if prefixb p x then Some 0%nat else match x with [] => None | _ :: x' => option_map S (find_str p x') end.
(** CountSubStr, utils.c 1080-1095. *)
Fixpoint count_sub (fuel : nat) (x p : list Z) : outcome nat :=
  match fuel with
  | O => Fuel
  | S fuel => match find_str p x with None => Ret 0%nat | Some i => let! n := count_sub fuel (skipn (i + length p) x) p in Ret (S n) end
  end.
(** ReplaceStr, utils.c 1097-1115: [m] is the memory, the text is from [i] on; memmove, then memcpy. *)
Fixpoint replace_loop (fuel : nat) (m : list Z) (i : nat) (p r : list Z) : outcome (list Z) :=
  match fuel with
  | O => Fuel
  | S fuel =>
    match zlen (skipn i m) with
    | None => UBR
    | Some n =>
      match find_str p (firstn n (skipn i m)) with
      | None => Ret m
      | Some j =>
        let it := (i + j)%nat in
        match write m (it + length r) (firstn (n - j - length p + 1) (skipn (it + length p) m)) with
        | None => UBW
        | Some m1 => match write m1 it r with
                     | None => UBW
                     | Some m2 => replace_loop fuel m2 (it + length r) p r
                     end
        end
      end
    end
  end.
(** ReplaceStr_WithLengthChecking, utils.c 1117-1135, with TOTAL_SPACE_NEEDED of utils.h 141-142 (modulo 2^64, then an int).  [None]
    is NULL. *)
Definition replace_checked (fuel : nat) (m p r : list Z) (size : Z) : outcome (option (list Z)) :=
  match zlen m with
  | None => UBR
  | Some n =>
    let! c := count_sub fuel (firstn n m) p in
    let need := (Z.of_nat n + 1 + (Z.of_nat (length r) - Z.of_nat (length p)) * Z.of_nat c) mod 18446744073709551616 in
    let need32 := if need mod 4294967296 <? 2147483648 then need mod 4294967296 else need mod 4294967296 - 4294967296 in
    if need32 >? size then Ret None else let! m' := replace_loop fuel m 0 p r in Ret (Some m')
  end.
