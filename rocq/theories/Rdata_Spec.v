(** What is stored in the cache from a response. *)
From Verif Require Import Base Hash_Model Cht_Model Cache_Model Cache_Spec Alias_Spec Rdata_Model Name_Spec Parser_Spec Iheader_Spec.

(** The records of a response with their numbers (from 1) and offsets. *)
Fixpoint located (k : Z) (o : nat) (rs : list rr) : list (Z * nat * rr) :=
  match rs with [] => [] | r :: rs' => (k, o, r) :: located (k + 1) (o + length (enc_rr r)) rs' end.
Definition records (g : message) : list (Z * nat * rr) :=
  located (Z.of_nat (length (m_qs g)) + 1) (12 + qs_len (m_qs g)) (m_an g ++ m_ns g ++ m_ar g).
(** Where the data of the record at [o] is. *)
Definition data_at (o : nat) (r : rr) : nat := (o + length (enc_rr r) - length (r_data r))%nat.

(** The records that are to be cached: class IN; A, AAAA, HTTPS, TXT, CNAME, PTR, NS, MX. *)
Definition cacheable (r : rr) : bool :=
  (r_class r =? 1) && existsb (Z.eqb (r_type r)) [1; 28; 65; 16; 5; 12; 2; 15].

(** [name_text g o t]: the text of the name at [o] of the message (compression followed; up to a NUL, if a label has one). *)
Definition name_text (g : message) (o : nat) (t : list Z) : Prop :=
  exists ls w, denotes 63 (enc_msg g) o ls w /\ (length (dotted ls) <= 253)%nat /\ before_nul (dotted ls) t.

(** The data that is stored: the record's own, or the text of the name in it with a terminator. *)
Inductive stored_data (g : message) (o : nat) (r : rr) : list Z -> Prop :=
| sd_raw : In (r_type r) [1; 28; 65; 16] -> stored_data g o r (r_data r)
| sd_name t : In (r_type r) [5; 12; 2] -> name_text g (data_at o r) t -> stored_data g o r (t ++ [0])
| sd_mx a b d t : r_type r = 15 -> r_data r = a :: b :: d -> d <> [] -> name_text g (data_at o r + 2) t -> stored_data g o r (a :: b :: t ++ [0]).

(** [stored_as g x rec]: the record [x] of the message is stored as [rec]. *)
Definition stored_as (g : message) (x : Z * nat * rr) (rec : crec) : Prop :=
  let '(_, o, r) := x in
  exists name data, name_text g o name /\ stored_data g o r data /\ rec = mk_rec name (r_type r) 1 (r_ttl r) data.

(** A response whose records that are to be cached can be read. *)
Definition to_cache (g : message) : list (Z * nat * rr) := filter (fun x => cacheable (snd x)) (records g).
Definition readable_records (g : message) : Prop := exists recs, Forall2 (stored_as g) (to_cache g) recs.

(** What happens to the cache: a response arrives (the first to its question or not; its message, what is in memory after it, the
    domain of the question, the clock when its records are stored, the contents of the arrays on the stack), or expired records
    are removed. *)
Record response := mk_response { p_first : bool; p_msg : message; p_post : list Z; p_domain : list Z; p_clk : Z -> Z; p_host : list Z; p_buf : list Z }.
Definition response_ok (p : response) : Prop :=
  good_msg (p_msg p) /\ m_qs (p_msg p) <> [] /\ readable_records (p_msg p) /\ Forall is_byte (p_post p) /\ length (p_host p) = 254%nat /\ length (p_buf p) = 512%nat.
Inductive event := Got (p : response) | Swept (now : Z).
Definition event_ok (e : event) : Prop := match e with Got p => response_ok p | Swept _ => True end.

Section Events.
Context (raw : list Z -> list cnode -> nat -> Z) (ignore parallel : bool) (get : list Z -> option ctrl) (nf fuel : nat).
Definition do_event (c : cache) (e : event) : outcome cache :=
  match e with
  | Got p => let! x := add_items raw ignore parallel get nf (p_host p) (p_buf p) (p_clk p) fuel (p_first p) (enc_msg (p_msg p) ++ p_post p) (length (enc_msg (p_msg p))) (p_domain p) c in Ret (snd x)
  | Swept now => cache_sweep c now
  end.
Fixpoint do_events (c : cache) (es : list event) : outcome cache :=
  match es with [] => Ret c | e :: es' => let! c' := do_event c e in do_events c' es' end.
End Events.
(** When the clock is read, in order. *)
Definition event_times (parallel : bool) (e : event) : list Z :=
  match e with
  | Got p => if p_first p || parallel then map (fun x => p_clk p (fst (fst x))) (to_cache (p_msg p)) else []
  | Swept now => [now]
  end.
Fixpoint ascending (t : Z) (ts : list Z) (now : Z) : Prop := match ts with [] => t <= now | s :: ts' => t <= s /\ ascending s ts' now end.
(** The events of arbitrary packets: the bytes in the receive buffer and how many of them are the packet. *)
Definition packet_event (raw : list Z -> list cnode -> nat -> Z) (ignore parallel : bool) (get : list Z -> option ctrl) (nf fuel : nat)
    (host buf : list Z) (clk : Z -> Z) (first : bool) (m : list Z) (len : nat) (domain : list Z) (c : cache) : outcome cache :=
  let! x := add_items raw ignore parallel get nf host buf clk fuel first m len domain c in Ret (snd x).

(** What packets put into the cache, whatever their bytes: records with a name that is a C string, of class IN and a cached type, with data
    of the shape that answering expects - but for MX records of two bytes. *)
Definition short_mx (r : crec) : Prop := Cache_Model.r_type r = 15 /\ length (Cache_Model.r_data r) = 2%nat.
Definition packet_op (o : op) : Prop :=
  match o with
  | OAdd _ r _ => rec_ok r /\ Cache_Model.r_class r = 1 /\ valid_type (Cache_Model.r_type r) = true /\ Cache_Model.r_data r <> [] /\ (data_ok (Cache_Model.r_type r) (Cache_Model.r_data r) \/ short_mx r)
  | OSweep _ => True
  end.

(** * The log *)
(** A line of the list: three spaces, what it is, the value. *)
Definition log_line (what value : list Z) : list Z := [32; 32; 32] ++ what ++ [58; 32] ++ value ++ [10].
Definition is_log_line (l : list Z) : Prop := exists what value, l = log_line what value /\ ~ In 0 what /\ ~ In 0 value.
(** [digits n ds]: [ds] are the decimal digits of [n]. *)
Definition digits (n : Z) (ds : list Z) : Prop := fold_left (fun v c => 10 * v + (c - 48)) ds 0 = n /\ Forall (fun c => 48 <= c <= 57) ds /\ ds <> [] /\ hd 0 ds <> 48.
(** "   And ", " More ...", "   Nothing.". *)
Definition and_more (ds : list Z) : list Z := [32; 32; 32; 65; 110; 100; 32] ++ ds ++ [32; 77; 111; 114; 101; 32; 46; 46; 46; 10].
Definition nothing : list Z := [32; 32; 32; 78; 111; 116; 104; 105; 110; 103; 46; 10].
(** The text for a message whose header counts [total] records. *)
Definition listing (total : Z) (text : list Z) : Prop :=
  (total = 0 /\ text = nothing) \/
  exists lines, Forall is_log_line lines /\ (text = concat lines \/ exists n ds, 1 <= n <= total /\ digits n ds /\ text = concat lines ++ and_more ds).
