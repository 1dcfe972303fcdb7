(** Model of the loading of the address rules: IpMiscMapping_Load and LoadIPSubstitutingFromFile (ipmisc.c 159-403).

    The options of the configuration are lists of strings ([None]: not given; how they are read: C37 to C39).  [open] is what a path of the
    configuration leads to after ExpandPathTo (which may fail) and fopen (which may fail): the bytes of the file.  The substituted address of a call of
    AddSubstituteFromString stands in an uninitialised array, [stale] (Ip_Model).  A StringList that is not NULL always gets an iterator
    (StringListIterator_Init, stringlist.c; StableBufferIterator_Init, stablebuffer.c), so that EXIT_2 (350) is never reached.  Memory: [ok_new] for the IPMisc
    itself, [ok_init] for IpChunk_Init; that an address may not fit in memory is not modelled. *)
From Verif Require Import Base Gen_Model Hosts_Model Line_Model Addr_Model Bst_Model Parser_Model Ip_Model.

(** strchr(" \t", c) for a character that is not NUL, ipmisc.c 213. *)
Definition blank (c : Z) : bool := (c =? 32) || (c =? 9).
(** The loop 211-223: the bytes of Mapping with the blanks replaced, Itr and Itr2 as offsets; [prev] is the byte before. *)
Fixpoint scan_tuple (pos : nat) (prev : Z) (s : list Z) (itr itr2 : option nat) : list Z * option nat * option nat :=
  match s with
  | [] => ([], itr, itr2)
  | c :: s' =>
    if blank c then let '(m, a, b) := scan_tuple (S pos) 0 s' itr itr2 in (0 :: m, a, b)
    else
      let '(x, y) := match itr with
                     | None => (Some pos, itr2)
                     | Some _ => match itr2 with None => (itr, if prev =? 0 then Some pos else None) | Some _ => (itr, itr2) end
                     end in
      let '(m, a, b) := scan_tuple (S pos) c s' x y in (c :: m, a, b)
  end.
(** Itr and Itr2 as strings, 209-230.  *(p - 1) is only read behind the first word. *)
Definition tuple_of (s : list Z) : option (list Z) * option (list Z) :=
  let '(m, a, b) := scan_tuple 0 0 s None None in
  (option_map (fun i => cstr (skipn i m)) a, option_map (fun i => cstr (skipn i m)) b).

Section Load.
Context (stale : nat -> Z).
(** The loop of LoadIPSubstitutingFromFile, 197-234; the result of AddSubstituteFromString is ignored (227), a line that is too long is skipped (233). *)
Fixpoint load_lines (fuel : nat) (f : file) (c : ipchunk) : outcome ipchunk :=
  match fuel with
  | O => Fuel
  | S fuel' =>
    let! r := read_line1 512 f in
    match fst r with
    | RlEnd => Ret c
    | RlDone s =>
      match tuple_of s with
      | (Some a, Some b) => let! x := add_subst stale c a b in load_lines fuel' (snd r) (snd x)
      | _ => load_lines fuel' (snd r) c
      end
    | RlTrunc _ => let! q := next_line (S (length (f_bytes (snd r)))) (snd r) in load_lines fuel' (snd q) c
    end
  end.
(** LoadIPSubstitutingFromFile, 182-239, of a file with these bytes. *)
Definition load_file (bs : list Z) (c : ipchunk) : outcome ipchunk := load_lines (S (length bs)) (mkf bs false) c.

(** IpMiscMapping_Load, the strings of BlockIP, 283-286; the result of AddBlockFromString is ignored. *)
Fixpoint load_blocks (l : list (list Z)) (c : ipchunk) : outcome ipchunk :=
  match l with [] => Ret c | s :: l' => let! x := add_block stale c s in load_blocks l' (snd x) end.
(** The strings of IPSubstituting, two at a time, 299-312. *)
Fixpoint load_pairs (l : list (list Z)) (c : ipchunk) : outcome ipchunk :=
  match l with a :: b :: l' => let! x := add_subst stale c a b in load_pairs l' (snd x) | _ => Ret c end.
(** The paths of IPSubstitutingFile, 324-337. *)
Fixpoint load_files (open : list Z -> option (list Z)) (l : list (list Z)) (c : ipchunk) : outcome ipchunk :=
  match l with
  | [] => Ret c
  | p :: l' => match open p with None => load_files open l' c | Some bs => let! c1 := load_file bs c in load_files open l' c1 end
  end.
(** An option that is not given has no strings, 273, 289, 314. *)
Definition strings (o : option (list (list Z))) : list (list Z) := match o with None => [] | Some l => l end.
(** CurrIpMiscMapping, 161: the table and BlockNegative of the IPMisc. *)
Definition mapping := option (ipchunk * bool).
(** IpMiscMapping_Load, 241-357: the returned value and CurrIpMiscMapping. *)
Definition ip_load (open : list Z -> option (list Z)) (ok_new ok_init : bool) (blocks subs files : option (list (list Z))) (neg : bool) (cur : mapping) : outcome (Z * mapping) :=
  match blocks, subs, files, neg with
  | None, None, None, false => Ret (0, cur)
  | _, _, _, _ =>
    if negb ok_new then Ret (-146, cur)
    else if negb ok_init then Ret (-147, cur)
    else
      let! c1 := load_blocks (strings blocks) ipchunk_init in
      let! c2 := load_pairs (strings subs) c1 in
      let! c3 := load_files open (strings files) c2 in
      Ret (0, Some (c3, neg))
  end.
(** IpMiscMapping_Update, 375-381; [reload] is ReloadIPSubstituting. *)
Definition ip_update (open : list Z -> option (list Z)) (reload ok_new ok_init : bool) (blocks subs files : option (list (list Z))) (neg : bool) (cur : mapping) : outcome mapping :=
  if reload then let! r := ip_load open ok_new ok_init blocks subs files neg cur in Ret (snd r) else Ret cur.
End Load.
(** IPMiscMapping_Process, 383-403, with the memory of the message (the parameters as for IPMisc_Process). *)
Definition ip_process (fuel : nat) (cur : mapping) (m : list Z) (len : nat) p0 t0 k0 d0 : outcome (Z * list Z) :=
  match cur with None => Ret (misc_nothing, m) | Some (c, neg) => misc_process fuel c neg m len p0 t0 k0 d0 end.
