(** Asking again for what a response has brought. *)
From Verif Require Import Base Hash_Model Cht_Model Cache_Model Cache_Spec Rdata_Model Parser_Spec Rdata_Spec Fetch_Spec.

(** The number of a record in its message. *)
Definition num (x : Z * nat * rr) : Z := fst (fst x).
Section Again.
Context (get : list Z -> option ctrl) (parallel : bool).
(** The lifetime that the record [rec] of the response [p] gets: its TTL, unless a rule of the configuration says otherwise. *)
Definition life (p : response) (rec : crec) : Z :=
  lifetime (choose_rule get (get (p_domain p)) (triplet (Cache_Model.r_name rec) (Cache_Model.r_type rec) (Cache_Model.r_class rec))) (Cache_Model.r_ttl rec).
(** [arrived es rec t l]: the record [rec] arrives at the time [t] in a response that is the first to its question (or any, with CacheParallel), and is given the lifetime [l]. *)
Inductive arrived (es : list event) : crec -> Z -> Z -> Prop :=
| arrived_in p x rec : In (Got p) es -> p_first p || parallel = true -> In x (to_cache (p_msg p)) -> stored_as (p_msg p) x rec -> arrived es rec (p_clk p (num x)) (life p rec).
(** The records of a response, each with the time of its arrival and its lifetime. *)
Definition arrivals (p : response) (recs : list crec) : list entry :=
  map (fun x => mk_entry (Cache_Model.r_name (snd x)) (Cache_Model.r_type (snd x)) (Cache_Model.r_class (snd x)) (Cache_Model.r_data (snd x)) (life p (snd x)) (p_clk p (num (fst x))))
      (combine (to_cache (p_msg p)) recs).
(** With CacheParallel all records of one name, type and class get the shortest of their lifetimes; this is without effect when they have the same and come in the same second. *)
Definition level (p : response) (recs : list crec) : Prop :=
  parallel = true -> forall x rec x' rec', In (x, rec) (combine (to_cache (p_msg p)) recs) -> In (x', rec') (combine (to_cache (p_msg p)) recs) ->
  Cache_Model.r_name rec = Cache_Model.r_name rec' -> Cache_Model.r_type rec = Cache_Model.r_type rec' -> Cache_Model.r_class rec = Cache_Model.r_class rec' ->
  life p rec = life p rec' /\ p_clk p (num x) = p_clk p (num x').
End Again.
(** How many records arrive that are to be cached. *)
Definition received (parallel : bool) (es : list event) : nat :=
  list_sum (map (fun e => match e with Got p => if p_first p || parallel then length (to_cache (p_msg p)) else 0%nat | Swept _ => 0%nat end) es).
(** The names in the data are such that they can be sent. *)
Definition plain_event (e : event) : Prop :=
  match e with
  | Got p => forall x rec, In x (to_cache (p_msg p)) -> stored_as (p_msg p) x rec -> exists w, wire_data (Cache_Model.r_type rec) (Cache_Model.r_data rec) w
  | Swept _ => True
  end.
(** Two records of the same name, type and class do not begin with each other's data. *)
Definition unlike (r r' : crec) : Prop :=
  Cache_Model.r_name r = Cache_Model.r_name r' -> Cache_Model.r_type r = Cache_Model.r_type r' -> Cache_Model.r_class r = Cache_Model.r_class r' ->
  ~ prefix (Cache_Model.r_data r) (Cache_Model.r_data r') /\ ~ prefix (Cache_Model.r_data r') (Cache_Model.r_data r).
(** [brought]: the record [r], as sent at [now], is a record of one of the responses [es]: the same owner name, type, class and data; what is sent as its TTL is positive and
    does not go beyond the end of its lifetime. *)
Definition brought (get : list Z -> option ctrl) (ignore : bool) (es : list event) (now : Z) (r : rr) : Prop :=
  exists p z off r0 n d, In (Got p) es /\ In (z, off, r0) (to_cache (p_msg p)) /\
    Parser_Spec.r_name r = mk_ename n None /\ name_text (p_msg p) off (Name_Spec.dotted n) /\ Parser_Spec.r_type r = Parser_Spec.r_type r0 /\ Parser_Spec.r_class r = Parser_Spec.r_class r0 /\
    stored_data (p_msg p) off r0 d /\ wire_data (Parser_Spec.r_type r0) d (Parser_Spec.r_data r) /\
    (ignore = false -> 0 < Parser_Spec.r_ttl r /\ now + Parser_Spec.r_ttl r <=
       p_clk p z + lifetime (choose_rule get (get (p_domain p)) (triplet (Name_Spec.dotted n) (Parser_Spec.r_type r0) (Parser_Spec.r_class r0))) (Parser_Spec.r_ttl r0)).
