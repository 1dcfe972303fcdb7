(** Model of the lists of good addresses (goodiplist.c). *)
From Verif Require Import Base Hash_Model Sht_Model Chunk_Model Ttl_Model Addr_Model Alist_Model.

(** struct _ListInfo, goodiplist.c 11-14; an address is its four bytes and its port. *)
Record ginfo := mk_gi { g_interval : Z; g_list : list (list Z * Z) }.
(** GoodIpList, goodiplist.c 16: the names with the places of their ListInfos, and those. *)
Record gstate := mk_gs { gs_chunk : chunk nat; gs_store : list ginfo }.

(** The conversion of the long that "%d" reads to int, goodiplist.c 151 and 193. *)
Definition to_int (v : Z) : Z := (v + 2147483648) mod 4294967296 - 2147483648.

(** One turn of InitListsAndTimes, goodiplist.c 146-160; [n0] is what the stack holds in place of the name. *)
Definition good_declare (n0 : list Z) (st : gstate) (text : list Z) : gstate :=
  let '(n, iv) := match scan_word 127 text with
                  | None => (n0, 0)
                  | Some (w, r) => (w, match scan_d r with None => 0 | Some (v, _) => to_int v end)
                  end in
  if iv <=? 0 then st
  else mk_gs (chunk_add (gs_chunk st) n (Some (length (gs_store st)))) (gs_store st ++ [mk_gi iv []]).

(** "%*[^0123456789]" of sscanf, goodiplist.c 193. *)
Fixpoint skip_nondigit (s : list Z) : list Z := match s with [] => [] | c :: r => if is_digit c then s else skip_nondigit r end.
(** The conversions of goodiplist.c 193: name, text of the address, port; what is not read keeps what the stack held. *)
Definition good_scan (n0 ip0 : list Z) (port0 : Z) (text : list Z) : list Z * list Z * Z :=
  match scan_word 127 text with
  | None => (n0, ip0, port0)
  | Some (w, r) =>
    let r1 := skip_nondigit r in
    if Nat.eqb (length r1) (length r) then (w, ip0, port0)
    else match take_until 15 58 r1 with
         | [] => (w, ip0, port0)
         | ip => match skipn (length ip) r1 with
                 | c :: q => if c =? 58 then (w, ip, match scan_d q with None => port0 | Some (v, _) => to_int v end) else (w, ip, port0)
                 | [] => (w, ip, port0)
                 end
         end
  end.
(** What the stack holds in one turn of AddToLists, goodiplist.c 187-191. *)
Record gstale := mk_gst { gt_name : list Z; gt_ip : list Z; gt_port : Z; gt_num : nat -> Z }.
(** One turn of AddToLists, goodiplist.c 185-213; the array could grow. *)
Definition good_add (j : gstale) (st : gstate) (text : list Z) : outcome gstate :=
  let '(n, ip, port) := good_scan (gt_name j) (gt_ip j) (gt_port j) text in
  let a := (snd (v4_to_num (gt_num j) ip), port mod 65536) in
  let! m := match_plain (gs_chunk st) n None (fun _ => true) in
  match m with
  | None => Ret st
  | Some None => UBR
  | Some (Some id) =>
    match nth_error (gs_store st) id with
    | None => UBR
    | Some g => Ret (mk_gs (gs_chunk st) (firstn id (gs_store st) ++ mk_gi (g_interval g) (g_list g ++ [a]) :: skipn (S id) (gs_store st)))
    end
  end.
(** The loops of InitListsAndTimes 144-160 and AddToLists 185-213; [j i] is what the stack holds in the [i]th turn. *)
Fixpoint good_declares (j : nat -> list Z) (i : nat) (st : gstate) (texts : list (list Z)) : gstate :=
  match texts with [] => st | x :: l => good_declares j (S i) (good_declare (j i) st x) l end.
(** AddToLists, goodiplist.c 185-213. *)
Fixpoint good_adds (j : nat -> gstale) (i : nat) (st : gstate) (texts : list (list Z)) : outcome gstate :=
  match texts with [] => Ret st | x :: l => let! st' := good_add (j i) st x in good_adds j (S i) st' l end.
(** GoodIpList_Init, goodiplist.c 259-277, with both options given: the lists, and the periodic tasks of AddTask 220-247 (name,
    interval, place). *)
Definition good_init (j1 : nat -> list Z) (j2 : nat -> gstale) (lists ips : list (list Z)) : outcome (gstate * list (list Z * Z * nat)) :=
  let! st := good_adds j2 0 (good_declares j1 0 (mk_gs chunk_init []) lists) ips in
  Ret (st, flat_map (fun e => match e_data e with
                              | Some id => match nth_error (gs_store st) id with Some g => [(e_str e, g_interval g, id)] | None => [] end
                              | None => [] end) (chunk_enum (gs_chunk st))).

(** GoodIpList_Get, goodiplist.c 279-301. *)
Definition good_get (st : gstate) (n : list Z) : outcome (option (list Z)) :=
  let! m := match_plain (gs_chunk st) n None (fun _ => true) in
  match m with
  | None => Ret None
  | Some None => UBR
  | Some (Some id) => match nth_error (gs_store st) id with
                      | None => UBR
                      | Some g => Ret (match g_list g with [] => None | a :: _ => Some (fst a) end)
                      end
  end.

(** What the system answers when CheckAList tries an address, goodiplist.c 34-58. *)
Inductive tried := NoSock | NoNonblock (fd : Z) | NoConn (fd : Z) | Connecting (fd : Z).
(** CheckAList 19-76: [t i] is what is answered for the [i]th address, [sel] which of those waited for is the first to be writable
    ([None]: none within five seconds).  The position of the fastest; the sockets closed; those left open. *)
Definition check_list (t : nat -> tried) (sel : option nat) (count : nat) : option nat * list Z * list Z :=
  let is := seq 0 count in
  let waiting := filter (fun i => match t i with Connecting _ => true | _ => false end) is in
  (match sel with None => None | Some k => nth_error waiting k end,
   flat_map (fun i => match t i with NoConn fd | Connecting fd => [fd] | _ => [] end) is,
   flat_map (fun i => match t i with NoNonblock fd => [fd] | _ => [] end) is).
(** The exchange at goodiplist.c 109-111. *)
Definition swap_first {A} (l : list A) (i : nat) : list A :=
  match l, nth_error l i with
  | x :: _, Some y => let l1 := firstn i l ++ x :: skipn (S i) l in y :: tl l1
  | _, _ => l
  end.
(** ThreadJod, goodiplist.c 79-117, for the list at place [id]; also the sockets left open. *)
Definition good_check (st : gstate) (id : nat) (t : nat -> tried) (sel : option nat) : outcome (gstate * list Z) :=
  match nth_error (gs_store st) id with
  | None => UBR
  | Some g =>
    let '(f, _, lost) := check_list t sel (length (g_list g)) in
    Ret (match f with
         | None => st
         | Some i => mk_gs (gs_chunk st) (firstn id (gs_store st) ++ mk_gi (g_interval g) (swap_first (g_list g) i) :: skipn (S id) (gs_store st))
         end, lost)
  end.
