(** Model of the rule sets (stringchunk.c): plain strings in a hash table, patterns in a list. *)
From Verif Require Import Base Hash_Model Sht_Model.

(** HAS_WILDCARD, common.h 253 (POSIX). *)
Definition has_wildcard (s : list Z) : bool := existsb (fun c => (c =? 42) || (c =? 63) || (c =? 91)) s.

Section Chunk.
(** [fn] is WILDCARD_MATCH(pattern, string) == WILDCARD_MATCHED, i.e. the C library's fnmatch (common.h 254-255): any function. *)
Context {V : Type} (fn : list Z -> list Z -> bool).

(** EntryForString, stringchunk.c 6-9: the stored copy of the string, the (stable) address of the data or NULL. *)
Record entry := mk_entry { e_str : list Z; e_data : option V }.

(** struct _StringChunk, stringchunk.h 9-21 (the two stores of strings and data are only memory). *)
Record chunk := mk_chunk { k_plain : sht entry; k_wild : list entry }.

(** StringChunk_Init, 11-68. *)
Definition chunk_init : chunk := mk_chunk (sht_init 5) [].

(** StringChunk_Add, 70-129; BKDRHash is the hash function. *)
Definition chunk_add (k : chunk) (s : list Z) (d : option V) : chunk :=
  if has_wildcard s then mk_chunk (k_plain k) (k_wild k ++ [mk_entry s d])
  else mk_chunk (sht_add (k_plain k) (bkdr s) (mk_entry s d)) (k_wild k).

(** StringChunk_Add_Domain, 131-143. *)
Definition chunk_add_domain (k : chunk) (s : list Z) (d : option V) : chunk :=
  chunk_add k (match s with 46 :: s' => s' | _ => s end) d.

(** strcmp(3) == 0, as used in stringchunk.c 145-361. *)
Fixpoint str_eqb (a b : list Z) : bool :=
  match a, b with
  | [], [] => true
  | x :: a', y :: b' => (x =? y) && str_eqb a' b'
  | _, _ => false
  end.

(** StringChunk_Match_NoWildCard, 145-186.  [acc] is the callback on the data (always true when Data or cb is NULL); the result
    is the data of the entry found ([None]: FALSE).  [hv] is *HashValue or, if HashValue is NULL, the hash of the string. *)
Fixpoint match_loop (fuel : nat) (k : chunk) (s : list Z) (hv : Z) (acc : option V -> bool) (start : option nat)
  : outcome (option (option V)) :=
  match fuel with
  | O => Fuel
  | S fuel' =>
    let! r := sht_find (k_plain k) hv start in
    match r with
    | None => Ret None
    | Some i =>
      match nth_error (t_nodes (k_plain k)) i with
      | None => UBR
      | Some n => if str_eqb (e_str (sh_data n)) s && acc (e_data (sh_data n)) then Ret (Some (e_data (sh_data n)))
                  else match_loop fuel' k s hv acc (Some i)
      end
    end
  end.
(** StringChunk_Match_NoWildCard, stringchunk.c 145-186. *)
Definition match_plain (k : chunk) (s : list Z) (hv : option Z) (acc : option V -> bool) : outcome (option (option V)) :=
  match_loop (S (length (t_nodes (k_plain k)))) k s (match hv with Some h => h | None => bkdr s end) acc None.

(** StringChunk_Match_OnlyWildCard, 188-233. *)
Fixpoint wild_loop (l : list entry) (s : list Z) (acc : option V -> bool) : option (option V) :=
  match l with
  | [] => None
  | e :: l' => if fn (e_str e) s && acc (e_data e) then Some (e_data e) else wild_loop l' s acc
  end.
(** StringChunk_Match_OnlyWildCard, stringchunk.c 188-233. *)
Definition match_wild (k : chunk) (s : list Z) (acc : option V -> bool) := wild_loop (k_wild k) s acc.

(** StringChunk_Match_OnlyWildCard_GetOne, 235-302; [rnd] is the value of rand(). *)
Definition match_wild_one (k : chunk) (s : list Z) (acc : option V -> bool) (rnd : nat) : option (option V) :=
  let ms := filter (fun e => fn (e_str e) s && acc (e_data e)) (k_wild k) in
  let any := filter (fun e => str_eqb (e_str e) [42]) ms in
  let some := filter (fun e => negb (str_eqb (e_str e) [42])) ms in
  let pm := match some with [] => any | _ => some end in
  match pm with
  | [] => None
  | _ => match nth_error pm (Nat.modulo rnd (length pm)) with
         | Some e => match e_data e with Some v => Some (Some v) | None => None end
         | None => None
         end
  end.

(** a || b on the results. stringchunk.c 304-430. *)
Definition orelse (a : outcome (option (option V))) (b : option (option V)) : outcome (option (option V)) :=
  let! r := a in Ret (match r with Some d => Some d | None => b end).

(** StringChunk_Match, 304-314. *)
Definition chunk_match (k : chunk) (s : list Z) (hv : option Z) (acc : option V -> bool) :=
  orelse (match_plain k s hv acc) (match_wild k s acc).

(** StringChunk_Match_WildCard_Exactly, 316-361; StringChunk_Match_Exactly, 363-373. *)
Fixpoint wild_exact_loop (l : list entry) (s : list Z) (acc : option V -> bool) : option (option V) :=
  match l with
  | [] => None
  | e :: l' => if str_eqb s (e_str e) && acc (e_data e) then Some (e_data e) else wild_exact_loop l' s acc
  end.
(** StringChunk_Match_Exactly, stringchunk.c 363-373. *)
Definition chunk_match_exactly (k : chunk) (s : list Z) (hv : option Z) (acc : option V -> bool) :=
  orelse (match_plain k s hv acc) (wild_exact_loop (k_wild k) s acc).

(** strchr(s, '.'): what follows the first dot; [None] is NULL. stringchunk.c 375-406. *)
Fixpoint after_dot (s : list Z) : option (list Z) :=
  match s with [] => None | c :: s' => if c =? 46 then Some s' else after_dot s' end.

(** StringChunk_Domain_Match_NoWildCard, 375-406.  For the empty string strchr(Domain + 1) starts behind the terminator: it
    sees the string [stale] that happens to be there (all callers pass buffers of more than one byte). *)
Fixpoint parents_loop (fuel : nat) (k : chunk) (o : option (list Z)) (acc : option V -> bool) : outcome (option (option V)) :=
  match o with
  | None => Ret None
  | Some s =>
    match fuel with
    | O => Fuel
    | S fuel' =>
      let! r := match_plain k s None acc in
      match r with
      | Some d => Ret (Some d)
      | None => parents_loop fuel' k (after_dot s) acc
      end
    end
  end.
(** StringChunk_Domain_Match_NoWildCard, stringchunk.c 375-406. *)
Definition domain_match_plain (stale : list Z) (k : chunk) (s : list Z) (hv : option Z) (acc : option V -> bool) : outcome (option (option V)) :=
  let! r := match_plain k s hv acc in
  match r with
  | Some d => Ret (Some d)
  | None => match s with
            | [] => parents_loop (S (length stale)) k (after_dot stale) acc
            | _ :: s' => parents_loop (S (length s)) k (after_dot s') acc
            end
  end.

(** StringChunk_Domain_Match, 408-418; StringChunk_Domain_Match_WildCardRandom, 420-430. *)
Definition domain_match (stale : list Z) (k : chunk) (s : list Z) (hv : option Z) (acc : option V -> bool) :=
  orelse (domain_match_plain stale k s hv acc) (match_wild k s acc).
(** StringChunk_Domain_Match_WildCardRandom, stringchunk.c 420-430. *)
Definition domain_match_random (stale : list Z) (k : chunk) (s : list Z) (hv : option Z) (acc : option V -> bool) (rnd : nat) :=
  orelse (domain_match_plain stale k s hv acc) (match_wild_one k s acc rnd).

(** StringChunk_Enum_NoWildCard, 433-454, until NULL. *)
Definition chunk_enum (k : chunk) : list entry := sht_enum (S (length (t_nodes (k_plain k)))) (k_plain k) 0.
End Chunk.
Arguments entry : clear implicits.
Arguments chunk : clear implicits.
