(** Model of the query filter (filter.c) and of the reply to a refused query (iheader.c 159-219). *)
From Verif Require Import Base Hash_Model Addr_Model Bst_Model Sht_Model Chunk_Model Line_Model.

(** TypeCompare, filter.c 19-22: a difference of ints; the overflow, undefined in C, is modelled as a wrap. *)
Definition type_compare (a b : Z) : Z := to_int32 (a - b).
(** The loop of FilterType_Init, filter.c 193-200: "%d" of sscanf leaves the variable as it was if there is no number; [cur] is its value, at first
    whatever is on the stack.  DisabledTypes->Add is bst_add. *)
Fixpoint types_loop (cur : Z) (b : bst Z) (items : list (list Z)) : outcome (bst Z) :=
  match items with
  | [] => Ret b
  | x :: items' => let n := match scan_d x with Some (v, _) => to_int32 v | None => cur end in let! r := bst_add type_compare b n in types_loop n (snd r) items'
  end.
(** FilterType_Init, filter.c 166-205; [items]: the strings of "DisabledType", none is a NULL list.  Allocation succeeds. *)
Definition types_init (stale : Z) (items : list (list Z)) : outcome (option (bst Z)) :=
  match items with [] => Ret None | _ => let! b := types_loop stale bst_init items in Ret (Some b) end.

Section F.
Context (fn : list Z -> list Z -> bool).   (* fnmatch(3) *)
Notation rules := (chunk unit).
(** LoadDomainsFromList, filter.c 42-66. *)
Definition load_list (k : rules) (ds : list (list Z)) : rules := fold_left (fun k d => chunk_add_domain k d None) ds k.
(** The loop of LoadDomainsFromFile, filter.c 103-119, with a buffer of 512 bytes. *)
Fixpoint load_lines (fuel : nat) (k : rules) (f : file) : outcome rules :=
  match fuel with
  | O => Fuel
  | S fuel' =>
    let! r := read_line1 512 f in
    match fst r with
    | RlEnd => Ret k
    | RlDone x => load_lines fuel' (chunk_add_domain k x None) (snd r)
    | RlTrunc _ => let! q := next_line (S (length (f_bytes (snd r)))) (snd r) in load_lines fuel' k (snd q)
    end
  end.
(** LoadDomainsFromFile, filter.c 87-124; None: the file cannot be opened. *)
Definition load_file (k : rules) (bs : option (list Z)) : outcome rules :=
  match bs with None => Ret k | Some l => load_lines (S (length l)) k (mkf l false) end.
(** The loop over the files in FilterDomain_InitFromFile, filter.c 126-153. *)
Fixpoint load_files (k : rules) (fs : list (option (list Z))) : outcome rules :=
  match fs with [] => Ret k | x :: fs' => let! k' := load_file k x in load_files k' fs' end.
(** DisabledDomain_Init, filter.c 216-244, with FilterDomain_Init 68-85, FilterDomain_InitFromFile 126-153 and InitChunk, stringchunk.c 469-490 (an existing
    table is kept); [ds]: the strings of "DisabledDomain"; [fs]: the contents of the files of "DisabledList".  Allocation succeeds.  The lock is left to C47. *)
Definition domains_init (ds : list (list Z)) (fs : list (option (list Z))) : outcome (option rules) :=
  let k := match ds with [] => None | _ => Some (load_list chunk_init ds) end in
  match fs with
  | [] => Ret k
  | _ => let! r := load_files (match k with None => chunk_init | Some x => x end) fs in Ret (Some r)
  end.
(** IsDisabledType, filter.c 276-285. *)
Definition is_disabled_type (t : option (bst Z)) (type : Z) : outcome bool :=
  match t with None => Ret false | Some b => let! r := bst_search type_compare b type None in Ret (match r with Some _ => true | None => false end) end.
(** IsDisabledDomain, filter.c 287-301; [stale]: see domain_match_plain. *)
Definition is_disabled_domain (stale : list Z) (k : option rules) (name : list Z) (hash : Z) : outcome bool :=
  match k with None => Ret false | Some k => let! r := domain_match fn stale k name (Some hash) (fun _ => true) in Ret (match r with Some _ => true | None => false end) end.
(** The flags set by MsgContext_SendBackRefusedMessage, iheader.c 208-219: the bit fields of dnsparser.h 52-128 in the bytes 2 and 3 of the message. *)
Definition refused_flags (q : list Z) : list Z :=
  match q with a :: b :: c :: d :: r => a :: b :: Z.lor c 128 :: Z.land (Z.lor d 128) 240 :: r | _ => q end.
(** MsgContext_SendBack, iheader.c 159-206: what is sent, and whether over TCP; the header that goes in front of a message between the program's own sockets
    (ReturnHeader) is not modelled. *)
Definition send_back (tcp : bool) (m : list Z) : list Z := if tcp then be16 (Z.of_nat (length m)) ++ m else m.
(** Filter_Out, filter.c 303-317: None: not refused; the statistics are left to C48. *)
Definition filter_out (stale : list Z) (t : option (bst Z)) (k : option rules) (tcp : bool) (q : list Z) (type : Z) (name : list Z) (hash : Z) : outcome (option (list Z)) :=
  let! a := is_disabled_type t type in
  let! b := if a then Ret true else is_disabled_domain stale k name hash in
  Ret (if b then Some (send_back tcp (refused_flags q)) else None).
End F.
