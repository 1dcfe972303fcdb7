(** What the cache should do, on the plain list of the stored records, the newest first. *)
From Verif Require Import Base Hash_Model Gen_Model Cht_Model Cache_Model.

(** A stored record; it may be served until [e_time + e_ttl]. *)
Record entry := mk_entry { e_name : list Z; e_type : Z; e_class : Z; e_data : list Z; e_ttl : Z; e_time : Z }.

Definition same_key (name : list Z) (ty kl : Z) (e : entry) : bool :=
  (if list_eq_dec Z.eq_dec (e_name e) name then true else false) && (e_type e =? ty) && (e_class e =? kl).
Definition prefix (a b : list Z) : Prop := exists z, b = a ++ z.

(** What can be stored: the item of marker, "name type class", NUL and data must be shorter than 512 bytes. *)
Definition storable (r : crec) : Prop :=
  r_data r <> [] /\ (1 + length (triplet (r_name r) (r_type r) (r_class r)) + 1 + length (r_data r) < 512)%nat.

Section Spec.
Context (ignore parallel : bool).

Definition fresh (now : Z) (e : entry) : bool := ignore || (now - e_time e <? e_ttl e).
Definition remaining (now : Z) (e : entry) : Z := if ignore then e_ttl e else e_ttl e - (now - e_time e).
(** The records a question is answered with: data and TTL. *)
Definition a_lookup (A : list entry) (name : list Z) (ty kl now : Z) : list (list Z * Z) :=
  map (fun e => (e_data e, remaining now e))
      (filter (fun e => same_key name ty kl e && fresh now e && negb (e_ttl e =? 0)) A).
Definition expired (now : Z) (e : entry) : bool := (0 <? e_ttl e) && (e_ttl e <=? now - e_time e).
Definition a_sweep (A : list entry) (now : Z) : list entry := filter (fun e => negb (expired now e)) A.

(** With CacheParallel all records of one name, type and class that may be served get the shortest lifetime of them. *)
Definition mates (r : crec) (now : Z) (e : entry) : bool := same_key (r_name r) (r_type r) (r_class r) e && fresh now e.
Definition a_min (A : list entry) (r : crec) (now ttl : Z) : Z :=
  if parallel then fold_left Z.min (map (fun e => u32 (e_ttl e - (now - e_time e))) (filter (mates r now) A)) ttl else ttl.
Definition a_level (A : list entry) (r : crec) (now t : Z) : list entry :=
  if parallel then map (fun e => if mates r now e then mk_entry (e_name e) (e_type e) (e_class e) (e_data e) t now else e) A else A.

(** Adding a record that is given the lifetime [life]: return value and the records afterwards. *)
Inductive a_add (life : Z) (A : list entry) (r : crec) (now : Z) : Z -> list entry -> Prop :=
| aa_bad code : ~ storable r -> code < 0 -> a_add life A r now code A
| aa_present e : storable r -> In e A -> mates r now e = true -> prefix (r_data r) (e_data e) \/ prefix (e_data e) (r_data r) ->
    a_add life A r now 0 A
| aa_zero : storable r -> (forall e, In e A -> mates r now e = true -> ~ prefix (r_data r) (e_data e)) -> life = 0 -> a_add life A r now 0 A
| aa_full : storable r -> (forall e, In e A -> mates r now e = true -> ~ prefix (r_data r) (e_data e)) -> life <> 0 -> a_add life A r now (-1) A
| aa_stored : storable r -> (forall e, In e A -> mates r now e = true -> ~ prefix (r_data r) (e_data e)) -> life <> 0 ->
    let t := a_min A r now life in
    a_add life A r now 0 (mk_entry (r_name r) (r_type r) (r_class r) (r_data r) t now :: a_level A r now t).

(** Giving the records to Generate one after the other, until one fails: -100 if there was none that did not fail. *)
Fixpoint serve (name : list Z) (ty kl : Z) (l : list (list Z * Z)) (ret : Z) (g : gen) : outcome (Z * gen) :=
  match l with
  | [] => Ret (ret, g)
  | (data, ttl) :: l' =>
    let! x := gen_generate name ty kl data ttl g in
    let '(e, g') := x in if e =? 0 then serve name ty kl l' 0 g' else Ret (ret, g')
  end.
End Spec.

(** What happens to a cache: a record of a message arrives (with the rule of the question's domain), or the task that removes
    expired records runs. *)
Inductive op := OAdd (infected : option ctrl) (r : crec) (now : Z) | OSweep (now : Z).
Definition op_time (o : op) : Z := match o with OAdd _ _ now => now | OSweep now => now end.

Section Histories.
Context (raw : list Z -> list cnode -> nat -> Z) (ignore parallel : bool) (get : list Z -> option ctrl).

Definition run_op (c : cache) (o : op) : outcome cache :=
  match o with
  | OAdd infected r now => let! x := add_item raw ignore parallel get infected c r now in Ret (snd x)
  | OSweep now => cache_sweep c now
  end.
Fixpoint run (c : cache) (ops : list op) : outcome cache :=
  match ops with [] => Ret c | o :: ops' => let! c' := run_op c o in run c' ops' end.

(** The records after the operations, on the list. *)
Inductive a_run : list entry -> list op -> list entry -> Prop :=
| ar_nil A : a_run A [] A
| ar_add A infected r now code A1 ops A2 :
    a_add ignore parallel (lifetime (choose_rule get infected (triplet (r_name r) (r_type r) (r_class r))) (r_ttl r)) A r now code A1 ->
    a_run A1 ops A2 -> a_run A (OAdd infected r now :: ops) A2
| ar_sweep A now ops A2 : a_run (a_sweep A now) ops A2 -> a_run A (OSweep now :: ops) A2.
End Histories.

(** Records as the parser gives them: names are C strings, type and class 16 bits, the TTL 32 bits. *)
Definition rec_ok (r : crec) : Prop :=
  ~ In 0 (r_name r) /\ 0 <= r_type r < 65536 /\ 0 <= r_class r < 65536 /\ 0 <= r_ttl r < 4294967296.
Definition op_ok (o : op) : Prop := match o with OAdd _ r _ => rec_ok r | OSweep _ => True end.
(** The clock does not go backwards. *)
Fixpoint clock (t : Z) (ops : list op) : Prop := match ops with [] => True | o :: r => t <= op_time o /\ clock (op_time o) r end.
Definition last_time (t : Z) (ops : list op) : Z := fold_left (fun _ o => op_time o) ops t.

(** ** Shape of the storage *)
(** Following the link [f] from [z] on visits exactly the nodes [l]. *)
Inductive chain (c : cache) (f : cnode -> Z) : Z -> list nat -> Prop :=
| ch_end z : z < 0 -> chain c f z []
| ch_node i n l : nth_error (c_nodes c) i = Some n -> chain c f (f n) l -> chain c f (Z.of_nat i) (i :: l).
(** Node [i] holds the record [e]. *)
Definition holds (c : cache) (i : nat) (e : entry) : Prop :=
  let bytes := triplet (e_name e) (e_type e) (e_class e) ++ 0 :: e_data e in
  exists n, nth_error (c_nodes c) i = Some n /\ slice (c_mem c) (n_off n + 1) (length bytes) = Some bytes /\
    n_used n = Z.of_nat (1 + length bytes) /\ n_ttl n = e_ttl e /\ n_time n = e_time e.
(** A new cache: room for the header and the slots. *)
Definition sized (size slots : nat) : Prop := (0 < slots)%nat /\ (header_size + slot_size * slots <= size)%nat.
