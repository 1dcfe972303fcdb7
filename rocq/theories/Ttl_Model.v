(** Model of cachettlcrtl.c (CacheControl rules) and of dnscache.c's entry point for received messages. *)
From Verif Require Import Base Hash_Model Sht_Model Chunk_Model Cht_Model Gen_Model Cache_Model.

(** TTL_STATE_* and TTL_CTRL_INFECTION_*, cachettlcrtl.h 6-15. *)
Definition st_nocache : Z := 0.
(** TTL_STATE_ORIGINAL, cachettlcrtl.h 7. *)
Definition st_original : Z := -1.
(** TTL_STATE_FIXED, cachettlcrtl.h 8. *)
Definition st_fixed : Z := 1.
(** TTL_STATE_VARIABLE, cachettlcrtl.h 9. *)
Definition st_variable : Z := 2.
(** TTL_CTRL_INFECTION_AGGRESSIVLY, cachettlcrtl.h 11. *)
Definition inf_aggressive : Z := 0.
(** TTL_CTRL_INFECTION_PASSIVLY, cachettlcrtl.h 12. *)
Definition inf_passive : Z := 1.
(** TTL_CTRL_INFECTION_NONE, cachettlcrtl.h 13. *)
Definition inf_none : Z := 2.

(** CacheTtlCrtl_Add, 16-26. *)
Definition ctl_add (k : chunk ctrl) (domain : list Z) (state coef inc inf : Z) : chunk ctrl :=
  chunk_add_domain k domain (Some (mk_ctrl state (if state =? st_fixed then 0 else coef) inc inf)).

(** isspace in the C locale. cachettlcrtl.c 28-74. *)
Definition is_space (c : Z) : bool := (c =? 32) || ((9 <=? c) && (c <=? 13)).
(** Leading blanks that sscanf skips, cachettlcrtl.c 28-74. *)
Fixpoint skip_space (s : list Z) : list Z := match s with [] => [] | c :: r => if is_space c then skip_space r else s end.
(** One conversion "%<n>s" of sscanf: the word and what is left. cachettlcrtl.c 28-74. *)
Fixpoint take_word (n : nat) (s : list Z) : list Z * list Z :=
  match n, s with
  | O, _ => ([], s)
  | S _, [] => ([], [])
  | S n', c :: r => if is_space c then ([], s) else let '(w, l) := take_word n' r in (c :: w, l)
  end.
(** %s of sscanf with a width, cachettlcrtl.c 28-74. *)
Definition scan_word (n : nat) (s : list Z) : option (list Z * list Z) :=
  match take_word n (skip_space s) with ([], _) => None | (w, l) => Some (w, l) end.

(** One conversion "%u": an optional sign and decimal digits; strtoul's 64 bit result is stored in 32 bits. *)
Definition is_digit (c : Z) : bool := (48 <=? c) && (c <=? 57).
(** The digits that sscanf takes for %u, cachettlcrtl.c 28-74. *)
Fixpoint take_digits (s : list Z) : list Z * list Z :=
  match s with [] => ([], []) | c :: r => if is_digit c then let '(d, l) := take_digits r in (c :: d, l) else ([], s) end.
(** Their value, cachettlcrtl.c 28-74. *)
Definition dec_value (ds : list Z) : Z := fold_left (fun v d => v * 10 + (d - 48)) ds 0.
(** %u of sscanf, cachettlcrtl.c 28-74. *)
Definition scan_u (s : list Z) : option (Z * list Z) :=
  let t := skip_space s in
  let '(neg, t') := match t with 45 :: r => (true, r) | 43 :: r => (false, r) | _ => (false, t) end in
  match take_digits t' with
  | ([], _) => None
  | (ds, l) => let v := dec_value ds in
               Some (if 18446744073709551615 <? v then 4294967295 else u32 (if neg : bool then - v else v), l)
  end.

(** strncmp(Cmd, w, strlen(w)) == 0. *)
Fixpoint starts_with (w s : list Z) : bool :=
  match w, s with [], _ => true | a :: w', b :: s' => (a =? b) && starts_with w' s' | _ :: _, [] => false end.

(** "orig", "nocache", "fixed", "vari". cachettlcrtl.c 28-74. *)
Definition w_orig : list Z := [111; 114; 105; 103].
(** "nocache", cachettlcrtl.c 28-74. *)
Definition w_nocache : list Z := [110; 111; 99; 97; 99; 104; 101].
(** "fixed", cachettlcrtl.c 28-74. *)
Definition w_fixed : list Z := [102; 105; 120; 101; 100].
(** "vari", cachettlcrtl.c 28-74. *)
Definition w_vari : list Z := [118; 97; 114; 105].

(** CacheTtlCrtl_Add_From_String, 28-74.  When words are missing the buffers keep what was on the stack: [d0], [c0], [a0]. *)
Definition ctl_words (d0 c0 a0 rule : list Z) : list Z * list Z * list Z :=
  match scan_word 127 rule with
  | None => (d0, c0, a0)
  | Some (d, r1) => match scan_word 15 r1 with
                    | None => (d, c0, a0)
                    | Some (c, r2) => match scan_word 63 r2 with None => (d, c, a0) | Some (a, _) => (d, c, a) end
                    end
  end.
(** The infection mark at the beginning of the command, cachettlcrtl.c 28-74. *)
Definition ctl_cmd (cmd : list Z) : Z * list Z :=
  match cmd with
  | 36 :: 36 :: r => (inf_none, r)
  | 36 :: r => (inf_passive, r)
  | _ => (inf_aggressive, cmd)
  end.
(** Coefficient and increment of "vari", cachettlcrtl.c 28-74. *)
Definition ctl_vari (arg : list Z) : Z * Z :=
  match scan_u arg with
  | None => (0, 0)
  | Some (a, l) => match l with
                   | 120 :: 43 :: l' => match scan_u l' with None => (a, 0) | Some (b, _) => (a, b) end
                   | _ => (a, 0)
                   end
  end.
(** CacheTtlCrtl_Add_From_String, cachettlcrtl.c 28-74. *)
Definition ctl_add_string (d0 c0 a0 : list Z) (k : chunk ctrl) (rule : list Z) : Z * chunk ctrl :=
  let '(d, c, a) := ctl_words d0 c0 a0 rule in
  let '(inf, cmd) := ctl_cmd c in
  if starts_with w_orig cmd then (0, ctl_add k d st_original 0 0 inf)
  else if starts_with w_nocache cmd then (0, ctl_add k d st_nocache 0 0 inf)
  else if starts_with w_fixed cmd then (0, ctl_add k d st_fixed 0 (match scan_u a with None => 0 | Some (v, _) => v end) inf)
  else if starts_with w_vari cmd then let '(x, y) := ctl_vari a in (0, ctl_add k d st_variable x y inf)
  else (-1, k).

(** CacheTtlCrtl_Add_From_StringList, 76-100: a line that is not understood is skipped.  With each line comes what was on
    the stack. *)
Definition ctl_add_lines (k : chunk ctrl) (lines : list (list Z * list Z * list Z * list Z)) : chunk ctrl :=
  fold_left (fun k l => let '(d0, c0, a0, rule) := l in snd (ctl_add_string d0 c0 a0 k rule)) lines k.
(** The rules at start, DNSCache_Init in dnscache.c, 237-263: the CacheControl lines, then OverrideTTL or MultipleTTL as a rule
    for "*" whose contagiousness is TRUE, that is 1. *)
Definition star : list Z := [42].
(** The rules as they are set up in DNSCache_Init, dnscache.c 237-263: CacheTtlCrtl_Add_From_StringList cachettlcrtl.c 76-100 and the two global options. *)
Definition ctl_init (lines : list (list Z * list Z * list Z * list Z)) (override multiple : Z) : chunk ctrl :=
  let k := ctl_add_lines chunk_init lines in
  if -1 <? override then ctl_add k star st_fixed 1 (u32 override) 1
  else if 1 <? multiple then ctl_add k star st_variable (u32 multiple) 0 1
  else k.

Section Get.
(** fnmatch, and what is behind the terminator of an empty name. *)
Context (fn : list Z -> list Z -> bool) (stale : list Z).
(** CacheTtlCrtl_Get, 102-111. *)
Definition ctl_get (k : chunk ctrl) (s : list Z) : option ctrl :=
  match domain_match fn stale k s None (fun _ => true) with Ret (Some (Some t)) => Some t | _ => None end.

(** DNSCache_AddItemsToCache, dnscache.c 633-674, on what the iterator gives: purpose (4 question, 6 answer, 8 authority, 10
    additional), the record, and the time when it is looked at.  A record that is not stored does not stop the loop. *)
Context (raw : list Z -> list cnode -> nat -> Z) (ignore parallel : bool).
(** The loop of DNSCache_AddItemsToCache, dnscache.c 633-674. *)
Fixpoint items_loop (k : chunk ctrl) (infected : option ctrl) (c : cache) (l : list (Z * crec * Z)) : outcome cache :=
  match l with
  | [] => Ret c
  | (purpose, r, now) :: l' =>
    if negb (purpose =? 4) && valid_type (r_type r) && (r_class r =? 1) then
      let! x := add_item raw ignore parallel (ctl_get k) infected c r now in items_loop k infected (snd x) l'
    else items_loop k infected c l'
  end.
(** DNSCache_AddItemsToCache, dnscache.c 633-674. *)
Definition add_items (k : chunk ctrl) (first : bool) (domain : list Z) (c : cache) (l : list (Z * crec * Z)) : outcome cache :=
  if negb first && negb parallel then Ret c else items_loop k (ctl_get k domain) c l.
End Get.
