(** Model of readconfig.c: the table of options and reading a configuration file into it. *)
From Verif Require Import Base Hash_Model Addr_Model Arr_Model Slist_Model Sht_Model Chunk_Model Line_Model.

(** OptionType, readconfig.h 24-32 (without TYPE_ALIAS, which is [EAlias]). *)
Inductive otype := TInt | TBool | TPath | TStr.
(** MultilineStrategy, readconfig.h 34-39. *)
Inductive strategy := StDefault | StReplace | StAppend | StDiscard.
(** ConfigOption, readconfig.h 55-78.  The members of the union are separate fields; [c_special] is Status == STATUS_SPECIAL_VALUE. *)
Record copt := mk_copt { c_type : otype; c_strat : strategy; c_special : bool; c_int : Z; c_bool : bool; c_str : sbuf; c_delims : list Z }.
(** An entry of the option table: an option or an alias (TYPE_ALIAS), readconfig.h 24-78, readconfig.c 86-118. *)
Inductive centry := EOpt (o : copt) | EAlias (target : list Z) (prep delims : option (list Z)).
(** ConfigFileInfo, readconfig.h 81-90.  The table stores copies of the options; the data of a key is the address (a number) of its
    copy.  StrBuffer only holds copies of strings, its strings are kept where they are used. *)
Record cfg := mk_cfg { g_keys : chunk nat; g_store : list centry }.
(** ConfigInitInfo, readconfig.c 10-25. *)
Definition cfg_init : cfg := mk_cfg chunk_init [].

Section Config.
(** [junk]: the contents of new memory (which is always given here).  [stale]: an uninitialised int.  [expand text room]: what
    ExpandPath (utils.c 917-961, wordexp of the C library) leaves in the buffer. *)
Context (junk : nat -> Z) (stale : Z) (expand : list Z -> nat -> list Z).

(** The common part of ConfigAddOption and ConfigAddAlias: the entry is added under its name, readconfig.c 41-118. *)
Definition add_entry (g : cfg) (name : list Z) (e : centry) : cfg :=
  mk_cfg (chunk_add (g_keys g) name (Some (length (g_store g)))) (g_store g ++ [e]).
(** ConfigAddOption, 41-84; the initial value of a string option may be NULL. *)
Definition config_add_option (g : cfg) (name : list Z) (st : strategy) (ty : otype) (vi : Z) (vb : bool) (vs : option (list Z)) : outcome cfg :=
  let! s := match ty, vs with
            | TPath, Some x | TStr, Some x => let! r := sl_add true junk [] x (Some [44]) in Ret (snd r)
            | _, _ => Ret []
            end in
  Ret (add_entry g name (EOpt (mk_copt ty st false vi vb s [44]))).
(** ConfigAddAlias, 86-118. *)
Definition config_add_alias (g : cfg) (target name : list Z) (prep delims : option (list Z)) : cfg := add_entry g name (EAlias target prep delims).

(** GetOptionOfAInfo, 121-154: the address of the option; Prepending and StringDelimiters are overwritten by every alias. *)
Fixpoint get_option (fuel : nat) (g : cfg) (key : list Z) (prep delims : option (list Z)) : outcome (option (nat * option (list Z) * option (list Z))) :=
  match fuel with
  | O => Fuel
  | S fuel' =>
    let! r := match_plain (g_keys g) key None (fun _ => true) in
    match r with
    | None => Ret None
    | Some None => UBR
    | Some (Some a) =>
      match nth_error (g_store g) a with
      | None => UBR
      | Some (EAlias t p d) => get_option fuel' g t p d
      | Some (EOpt _) => Ret (Some (a, prep, delims))
      end
    end
  end.
(** GetOptionOfAInfo, readconfig.c 121-154. *)
Definition get_opt (g : cfg) (key : list Z) := get_option (S (length (g_store g))) g key None None.
(** Writing to the option found, readconfig.c 213-336 and 555-583. *)
Definition set_entry (g : cfg) (a : nat) (o : copt) : cfg := mk_cfg (g_keys g) (firstn a (g_store g) ++ EOpt o :: skipn (S a) (g_store g)).
(** ConfigSetStringDelimiters, 156-181, and ConfigSetDefaultValue, 555-583 (for a string: Clear and Add). *)
Definition config_set_delims (g : cfg) (key ds : list Z) : outcome cfg :=
  let! r := get_opt g key in
  match r with
  | None => Ret g
  | Some (a, _, _) =>
    match nth_error (g_store g) a with
    | Some (EOpt o) => match c_type o with TStr => Ret (set_entry g a (mk_copt TStr (c_strat o) (c_special o) (c_int o) (c_bool o) (c_str o) ds)) | _ => Ret g end
    | _ => UBR
    end
  end.
(** ConfigSetDefaultValue, readconfig.c 555-583. *)
Definition config_set_default (g : cfg) (key : list Z) (vi : Z) (vb : bool) (vs : list Z) : outcome cfg :=
  let! r := get_opt g key in
  match r with
  | None => Ret g
  | Some (a, _, _) =>
    match nth_error (g_store g) a with
    | Some (EOpt o) =>
      match c_type o with
      | TInt => Ret (set_entry g a (mk_copt TInt (c_strat o) (c_special o) vi (c_bool o) (c_str o) (c_delims o)))
      | TBool => Ret (set_entry g a (mk_copt TBool (c_strat o) (c_special o) (c_int o) vb (c_str o) (c_delims o)))
      | TStr => let! q := sl_add true junk [] vs (Some (c_delims o)) in
                Ret (set_entry g a (mk_copt TStr (c_strat o) (c_special o) (c_int o) (c_bool o) (snd q) (c_delims o)))
      | TPath => Ret g
      end
    | _ => UBR
    end
  end.

(** GetBooleanValueFromString, 183-211. *)
Definition has_str (p x : list Z) : bool := match find_str p x with Some _ => true | None => false end.
(** GetBooleanValueFromString, readconfig.c 183-211. *)
Definition bool_of (v : list Z) : bool :=
  let dump := str_to_lower (firstn 7 v) in
  let word := if has_str [102; 97; 108; 115; 101] dump then false
              else if has_str [116; 114; 117; 101] dump then true
              else if has_str [110; 111] dump then false
              else has_str [121; 101; 115] dump in
  match v with
  | c :: _ => if (48 <=? c) && (c <=? 57) then negb (c =? 48) else word
  | [] => word
  end.
(** Assignment to Strategy, readconfig.c 213-336. *)
Definition set_strat (o : copt) (st : strategy) : copt := mk_copt (c_type o) st (c_special o) (c_int o) (c_bool o) (c_str o) (c_delims o).
(** Assignment to Holder.INT32 and Status, readconfig.c 249-280. *)
Definition set_int (o : copt) (v : Z) : copt := mk_copt (c_type o) (c_strat o) true v (c_bool o) (c_str o) (c_delims o).
(** Assignment to Holder.boolean and Status, readconfig.c 213-247. *)
Definition set_bool (o : copt) (v : bool) : copt := mk_copt (c_type o) (c_strat o) true (c_int o) v (c_str o) (c_delims o).
(** Assignment to Holder.str and Status, readconfig.c 282-336. *)
Definition set_str (o : copt) (v : sbuf) : copt := mk_copt (c_type o) (c_strat o) true (c_int o) (c_bool o) v (c_delims o).
(** The first case of the three switches, 217-222, 253-258 and 293-298: the strategy changes, then the case of the next labels is run. *)
Definition discard_step (o : copt) : copt := if c_special o then o else set_strat o StAppend.
(** ParseBoolean, 213-247. *)
Definition parse_boolean (o : copt) (v : list Z) : copt :=
  match c_strat o with
  | StDiscard => set_bool (discard_step o) (bool_of v)
  | StDefault | StReplace => set_bool o (bool_of v)
  | StAppend => set_bool o (c_bool o || bool_of v)
  end.
(** ParseInt32, 249-280: "%d" of sscanf; nothing is written when there is no number. *)
Definition parse_int32 (o : copt) (v : list Z) : copt :=
  match c_strat o with
  | StDiscard => set_int (discard_step o) (match scan_d v with Some (x, _) => to_int32 x | None => c_int o end)
  | StDefault | StReplace => set_int o (match scan_d v with Some (x, _) => to_int32 x | None => c_int o end)
  | StAppend => set_int o (to_int32 (c_int o + match scan_d v with Some (x, _) => to_int32 x | None => stale end))
  end.
(** The loop 322-329 of ParseString; [fuel] for the reads. *)
Fixpoint more_parts (fuel : nat) (s : sbuf) (ds : list Z) (f : file) : outcome (sbuf * file) :=
  match fuel with
  | O => Fuel
  | S fuel' =>
    let! r := read_line1 2048 f in
    match fst r with
    | RlEnd => Ret (s, snd r)
    | RlDone x => let! q := sl_append_last true junk junk s x (Some ds) in Ret (snd q, snd r)
    | RlTrunc x => let! q := sl_append_last true junk junk s x (Some ds) in more_parts fuel' (snd q) ds (snd r)
    end
  end.
(** The bytes used in all blocks (StableBuffer_MetaInfo.Used, stablebuffer.h 6-10); only a bound for the loop of TrimAll. *)
Definition total_used (s : sbuf) : nat := fold_right (fun b n => (bk_used b + n)%nat) 0%nat s.
(** ParseString, 282-336. *)
Definition parse_string (o : copt) (ds v : list Z) (done trim : bool) (f : file) : outcome (copt * file) :=
  let o1 := match c_strat o with StDiscard => discard_step o | _ => o end in
  let s0 := match c_strat o with StAppend => c_str o | _ => [] end in
  let! r := sl_add true junk s0 v (Some ds) in
  let! q := if done then Ret (snd r, f) else more_parts (S (length (f_bytes f))) (snd r) ds f in
  let! s := if trim then trim_all (S (S (total_used (fst q)))) None (fst q) else Ret (fst q) in
  Ret (set_str o1 s, snd q).
(** TrimPath, 338-359. *)
Definition trim_path (v : list Z) : option (list Z) :=
  match rnpbrk [34] v with
  | None => None
  | Some t => match npbrk [34; 9; 32] (firstn (S t) v) with None => None | Some h => Some (skipn h (firstn (S t) v)) end
  end.
(** SplitNameAndValue(Buffer, " \t="), utils.c 1305-1317, with GoToNextNonSpace, utils.c 874-877. *)
Fixpoint split_nv (l : list Z) : option (list Z * list Z) :=
  match l with
  | [] => None
  | c :: l' => if memz c [32; 9; 61] then match npbrk [9; 32] l' with None => None | Some h => Some ([], skipn h l') end
               else match split_nv l' with None => None | Some (k, v) => Some (c :: k, v) end
  end.
(** One round of the loop of ConfigRead, 381-475: the option, the table and the file behind it.  [done]: ReadStatus == READ_DONE. *)
Definition prepend (o : copt) (prep : option (list Z)) (ds : option (list Z)) (f : file) : outcome copt :=
  match prep with
  | None => Ret o
  | Some p =>
    match c_type o with
    | TInt => Ret (parse_int32 o p)
    | TBool => Ret (parse_boolean o p)
    | TPath => let! r := parse_string o [] p true false f in Ret (fst r)
    | TStr => let! r := parse_string o (match ds with Some d => d | None => c_delims o end) p true false f in Ret (fst r)
    end
  end.
(** The dispatch on the type of the option in ConfigRead, readconfig.c 361-479. *)
Definition set_value (o : copt) (prep : option (list Z)) (ds : option (list Z)) (v : list Z) (room : nat) (done : bool) (f : file) : outcome (copt * file) :=
  match c_type o with
  | TInt => Ret (parse_int32 o v, f)
  | TBool => Ret (parse_boolean o v, f)
  | TPath => if done then match trim_path v with None => Ret (o, f) | Some x => parse_string o [] (expand x room) done true f end else Ret (o, f)
  | TStr => parse_string o (match ds with Some d => d | None => c_delims o end) v done true f
  end.
(** One turn of the loop of ConfigRead, readconfig.c 361-479. *)
Definition config_line (g : cfg) (line : list Z) (done : bool) (f : file) : outcome (bool * cfg * file) :=
  match split_nv line with
  | None => Ret (false, g, f)
  | Some (k, v) =>
    let! r := get_opt g k in
    match r with
    | None => Ret (false, g, f)
    | Some (a, p, ds) =>
      match nth_error (g_store g) a with
      | Some (EOpt o) =>
        let! o1 := prepend o p ds f in
        let! q := set_value o1 p ds v (2048 - (length line - length v)) done f in
        Ret (true, set_entry g a (fst q), snd q)
      | _ => UBR
      end
    end
  end.
(** ConfigRead, 361-479; the number of lines taken. *)
Fixpoint config_read (fuel : nat) (g : cfg) (f : file) (n : Z) : outcome (Z * cfg) :=
  match fuel with
  | O => Fuel
  | S fuel' =>
    let! r := read_line1 2048 f in
    match fst r with
    | RlEnd => Ret (n, g)
    | RlDone x => let! q := config_line g x true (snd r) in config_read fuel' (snd (fst q)) (snd q) (if fst (fst q) then n + 1 else n)
    | RlTrunc x => let! q := config_line g x false (snd r) in config_read fuel' (snd (fst q)) (snd q) (if fst (fst q) then n + 1 else n)
    end
  end.
(** ConfigGetInt32, ConfigGetBoolean 530-552, ConfigGetStringList, ConfigGetNumberOfStrings 501-528 (the strings of the list). *)
Definition config_get (g : cfg) (key : list Z) : outcome (option copt) :=
  let! r := get_opt g key in
  match r with
  | None => Ret None
  | Some (a, _, _) => match nth_error (g_store g) a with Some (EOpt o) => Ret (Some o) | _ => UBR end
  end.
End Config.
